(** CP: which replies can end a refresh in undefined behaviour or an assertion. *)
From Verif Require Import Base ListLemmas Crc SpecCrc CrcProofs CrcBurst Aes AesProofs Rb RbProofs
  Types Sc ScProofs Phy PhyCheck File Pd Cp SpecRx SpecFrame SpecSec SpecSession SpecReply RxProofs RxFwd PdRx PdCore PhyTx PdTx PdReply
  PdStep PdRun PdWire PdFwd PdSec PdHist2 WireSec SaysProofs CpCtx SpecPd SpecCp SpecCpRun CpTx CpRx CpStep CpInv CpEdge CpFacts CpSum CpWire CpHist CpTime CpFwd CpRetry CpSeq CpQueue CpReply
  SpecTotal PdTotal SpecCpTotal.
From Coq Require Import ZifyBool ZifyNat.
Ltac Zify.zify_post_hook ::= Z.div_mod_to_equations.
Local Opaque aes_ecb_encrypt aes_cbc_encrypt aes_cbc_decrypt mac_of RB_SIZE osdp_mac enc1 cap_entries osdp_encrypt encrypt_data.

(** * Receiving *)
Lemma cp_receive e p : cpi p -> phy_state p = PReplyWait -> env_typed e -> check_packet e p = UB OobWrite -> reply_256 e p.
Proof.
  intros C P (BR & _) U. pose proof (cv_mode p (ci_b p C)) as Hpd. destruct (ci_rx p C P) as (W & Sy & _).
  destruct (check_packet_cases e p W BR) as [(E & q & R & PL & HM & CH & PB & (noise & A & L & _) & SY & P5 & RB)|[(q & k & E & NF & _)|(q & E & GF & _)]]; [|congruence|].
  2:{ rewrite U in E. discriminate. }
  specialize (SY Sy). destruct (SY ltac:(lia)) as (_ & t & PD). rewrite HM in PD.
  exists noise, (83 :: t). split; [rewrite A, PD; reflexivity|]. split; [reflexivity|].
  destruct RB as (W1 & W2 & W3 & W4).
  assert (G : forall i, (i < 5)%nat -> nth i (pbuf q) 0 = nth i (pending q) 0).
  { intros i Hi. unfold pending. rewrite app_nth1 by (rewrite firstn_length; lia). symmetry. apply nth_firstn. lia. }
  pose proof (rxcore_pd_mode _ _ R) as PM. rewrite Hpd in PM.
  unfold check_header_bytes in CH. unfold mark_len in CH. rewrite HM, PM in CH. unfold getb in CH.
  change (Z.to_nat (1 + 0)) with 1%nat in CH. change (Z.to_nat (1 + 1)) with 2%nat in CH.
  change (Z.to_nat (1 + 2)) with 3%nat in CH. change (Z.to_nat (1 + 3)) with 4%nat in CH.
  rewrite !G in CH by lia. rewrite PD in CH. cbn [app nth] in CH.
  assert (BT : bytes (83 :: t)).
  { assert (X : bytes (pending q)) by (unfold pending; apply bytes_app; split; [apply bytes_firstn; auto|auto]).
    rewrite PD in X. inv X. auto. }
  unfold f_reply, SpecRx.f_len. cbn [nth] in *.
  destruct (negb (83 =? PKT_SOM)); [discriminate|].
  destruct ((negb false && negb (Z.testbit (nth 0 t 0) 7)) || (false && Z.testbit (nth 0 t 0) 7)) eqn:D; [discriminate|].
  cbn [negb andb orb] in D. destruct ((_ >? _) || _) eqn:D2; [discriminate|]. inv CH.
  pose proof (bytes_nth (83 :: t) 1 BT) as B1. cbn [nth] in B1. unfold byte in B1.
  rewrite testbit_div in D by lia. change (2 ^ 7) with 128 in D.
  split; [lia|]. split; [lia|]. rewrite PD in L. cbn [app] in L. rewrite zlen_cons in L. lia.
Qed.

Lemma getb_from1 l i : 0 <= i -> getb (from l 1) i = nth (Z.to_nat (i + 1)) l 0.
Proof.
  intros H. unfold getb, from. change (Z.to_nat 1) with 1%nat. replace (Z.to_nat (i + 1)) with (S (Z.to_nat i)) by lia.
  destruct l; [destruct (Z.to_nat i); reflexivity|reflexivity].
Qed.
Lemma zlen_from1 (l : list Z) : 1 <= zlen l -> zlen (from l 1) = zlen l - 1.
Proof. intros H. unfold from, zlen in *. change (Z.to_nat 1) with 1%nat. rewrite skipn_length. lia. Qed.

Lemma response_total e p l : bytes l -> 1 <= zlen l -> file p = None ->
  (exists y, decode_response e p l = Ok y) \/ too_much l.
Proof.
  intros B Z1 FN. unfold decode_response. cbv zeta.
  pose proof (zlen_from1 l Z1) as ZL. unfold dec_mask, file_stat_decode. cbn [file set_reply_id]. simpl file. rewrite FN.
  assert (BB : forall i, byte (nth i l 0)) by (intros; apply bytes_nth; auto).
  repeat match goal with
  | |- (exists y, (if getb l 0 =? ?b then _ else _) = _) \/ _ => destruct (getb l 0 =? b) eqn:?
  end; cbn [bind].
  all: repeat match goal with
  | |- (exists y, (if ?b then _ else _) = _) \/ _ => destruct b eqn:?
  end.
  all: try (left; eexists; reflexivity).
  - right. left. rewrite getb_from1 in * by lia. unfold getb, REPLY_KEYPAD in *.
    change (Z.to_nat (1 + 1)) with 2%nat in *. change (Z.to_nat 0) with 0%nat in *.  lia.
  - right. right. cbv zeta. unfold le16 in *. rewrite !getb_from1 in * by lia. unfold getb, REPLY_RAW in *.
    change (Z.to_nat (2 + 1)) with 3%nat in *. change (Z.to_nat (3 + 1)) with 4%nat in *. change (Z.to_nat 0) with 0%nat in *.
    pose proof (BB 3%nat). pose proof (BB 4%nat). unfold byte in *. lia.
Qed.

(* the frames that can bring the panel down *)
Definition fatal_reply (e : env) (p : pd) : Prop :=
  exists f, cp_heard e p f /\ cp_accepted p f /\
    ((sc_active (fl p) = true /\ block_too_long f) \/
     exists l, f_says (sc_active (fl p)) (s_enc (sc p)) (c_mac (sc p)) f l /\ too_much l).

Lemma process_total e p : cpi p -> phy_state p = PReplyWait -> env_typed e -> file p = None ->
  (exists q r o, process_reply e p = Ok (q, r, o)) \/ reply_256 e p \/ fatal_reply e p.
Proof.
  intros C P T FN. destruct (ci_rx p C P) as (W & Sy & SQ). pose proof (cv_mode p (ci_b p C)) as M. pose proof (cv_skip p (ci_b p C)) as SK.
  unfold process_reply.
  destruct (check_packet_cases e p W (proj1 T)) as [(U & _)|[(p1 & k & E & N & S & HK)|(p1 & E & G & S & _)]].
  - right. left. apply cp_receive; auto.
  - left. rewrite E. cbn [bind]. pose proof N as (_ & _ & _ & _ & K). destruct k; try contradiction; do 3 eexists; reflexivity.
  - rewrite E. cbn [bind]. pose proof G as (R & [(_ & _ & Lb & Bb) _] & _ & PL & PR & _ & _ & ZL).
    assert (M1 : pd_mode (fl p1) = false) by (rewrite (rxcore_pd_mode _ _ R); auto).
    assert (S1 : skip_seq (fl p1) = false) by (rewrite <- SK; exact (f_equal (fun x => skip_seq (fl x)) R)).
    assert (BF : bytes (frame_of p1)) by (apply bytes_sub; auto).
    assert (L6 : 6 <= zlen (frame_of p1)) by (destruct G as (_ & _ & _ & _ & _ & _ & (_ & _ & _ & F) & _); apply F).
    assert (B1 : cbinv p1) by (apply (cbinv_rx p); auto; [apply C|]; destruct G as (_ & [X _] & _); exact X).
    destruct (rxcore_fields _ _ R) as (a1 & a2 & a3 & a4 & a5 & a6 & a7 & a8 & a9 & a10).
    destruct (cp_frame p1 (frame_of p1) M1 S1 BF L6) as
      [(I & X)|[(I & Mi & X)|[(I & Mi & B & X)|[(I & Mi & B & Q & X)|(I & Mi & B & Q & X)]]]]; rewrite X.
    1-4: left; do 3 eexists; reflexivity.
    assert (AC : cp_accepted p (frame_of p1)) by (split; [auto|split; [rewrite <- a7; auto|rewrite <- a6; auto]]).
    destruct (got_full _ _ _ G) as (FU & _).
    destruct (decode_packet_total p1 (cv_rxb p1 B1) FU) as [[[p2 r] D]|[D1 D2]].
    2:{ right. right. exists (frame_of p1). split; [apply got_heard; auto|]. split; auto. left. rewrite <- a2. auto. }
    rewrite D. cbn [bind]. destruct r as [k|l]; [left; do 3 eexists; reflexivity|].
    destruct (cp_decode_packet _ _ _ B1 ltac:(destruct FU as (x & y & _); lia) D) as (CB2 & DC & _ & _ & _ & BL & NL & ZL2 & _).
    assert (Z1 : 1 <= zlen l) by (destruct l; [congruence|rewrite zlen_cons; pose proof (zlen_nonneg l); lia]).
    assert (F2 : file p2 = None) by (rewrite <- FN; transitivity (file p1); [exact (f_equal (fun x => file x) DC)|exact (f_equal (fun x => file x) R)]).
    destruct (response_total e p2 l BL Z1 F2) as [[[[q r] o] DR]|TM]; [left; do 3 eexists; exact DR|].
    right. right. destruct (got_says e p p1 p2 l C G B1 AC D) as (f & HF & HA & HS & _). exists f. split; auto. split; auto. right. exists l. auto.
Qed.

(** * Sending *)
(* the command of the exchange finds its structure *)
Definition fits (c : Z) (x : ephem) : Prop :=
  In c [104; 105; 106; 107; 110; 128; 117] -> exists m, x = EphCmd m /\ cmd_small m /\
    match m with
    | COutput _ _ _ => c = 104 | CLed _ _ _ _ => c = 105 | CBuzzer _ _ _ _ _ => c = 106
    | CText _ _ _ _ _ _ _ => c = 107 | CComset _ _ => c = 110 | CMfg _ _ _ _ => c = 128 | CKeyset _ _ _ => c = 117
    | _ => False
    end.

Lemma app_total p m : fits (cmd_id p) (eph p) -> 60 <= m -> exists x, build_app_cmd p m = Ok x.
Proof.
  intros F M. unfold build_app_cmd, CMD_OUT, CMD_LED, CMD_BUZ, CMD_TEXT, CMD_COMSET, CMD_MFG, CMD_KEYSET. cbv zeta.
  assert (AL : forall A n (k : res A), n < m -> assert_len n m k = k) by (intros A n k H; unfold assert_len; replace (n <? m) with true by lia; reflexivity).
  assert (G : forall c, cmd_id p = c -> In c [104; 105; 106; 107; 110; 128; 117] -> exists m, eph p = EphCmd m /\ cmd_small m /\
    match m with
    | COutput _ _ _ => c = 104 | CLed _ _ _ _ => c = 105 | CBuzzer _ _ _ _ _ => c = 106
    | CText _ _ _ _ _ _ _ => c = 107 | CComset _ _ => c = 110 | CMfg _ _ _ _ => c = 128 | CKeyset _ _ _ => c = 117
    | _ => False
    end) by (intros c <- H; apply F; auto).
  repeat match goal with |- exists x, (if cmd_id p =? ?b then _ else _) = _ => destruct (cmd_id p =? b) eqn:?;
    [destruct (G b ltac:(lia) ltac:(cbn; auto 10)) as (k & EK & SK & XK); rewrite ?EK; destruct k; try contradiction; try discriminate|] end.
  all: try (rewrite AL by lia; eexists; reflexivity).
  - cbn [cmd_small] in SK. rewrite AL by lia. match goal with |- context [take_arr ?d ?n] => destruct (take_ok d n ltac:(lia)) as [y ->] end. eexists; reflexivity.
  - cbn [cmd_small] in SK. rewrite AL by lia. destruct (_ >? 64); [eexists; reflexivity|]. match goal with |- context [take_arr ?d ?n] => destruct (take_ok d n ltac:(lia)) as [y ->] end. eexists; reflexivity.
  - cbn [cmd_small] in SK. destruct (negb _); [eexists; reflexivity|]. rewrite AL by lia. destruct (negb _); [eexists; reflexivity|].
    match goal with |- context [take_arr ?d ?n] => destruct (take_ok d n ltac:(lia)) as [y ->] end. cbn [bind].
    destruct (_ =? 1); [eexists; reflexivity|]. destruct (_ =? 0); eexists; reflexivity.
  - eexists; reflexivity.
Qed.

Lemma switch_built e p smb m : fits (cmd_id p) (eph p) -> cmd_id p <> 124 -> 60 <= m -> exists x, build_cmd_switch e p smb m = Ok x.
Proof.
  intros F N M. unfold build_cmd_switch. cbv zeta.
  assert (AL : forall A n (k : res A), n < m -> assert_len n m k = k) by (intros A n k H; unfold assert_len; replace (n <? m) with true by lia; reflexivity).
  destruct (cmd_id p =? CMD_FILETRANSFER) eqn:EF; [unfold CMD_FILETRANSFER in EF; lia|].
  repeat match goal with |- exists x, (if ?b then _ else _) = _ => destruct b end.
  all: rewrite ?AL by lia.
  all: repeat match goal with |- exists x, (if ?b then _ else _) = _ => destruct b end.
  all: try (eexists; reflexivity).
  destruct (app_total p m F M) as [x ->]. eexists; reflexivity.
Qed.

Lemma sent_total e p : cbinv p -> hs_ok p -> fread_typed e -> fits (cmd_id p) (eph p) -> cmd_id p <> 124 ->
  exists q ok o, build_and_send e p = Ok (q, ok, o).
Proof.
  intros CB HO FT F N. pose proof (cv_mode p CB) as M. pose proof (cv_seq p CB) as SQ. pose proof (cv_ty p CB) as T.
  unfold build_and_send. cbv zeta. rewrite packet_init_cp by auto.
  destruct (tx_buf_size p <? 69) eqn:EN; [do 3 eexists; reflexivity|].
  pose proof (tx_buf_le p) as NL.
  assert (RM : 60 <= cmd_room p).
  { unfold cmd_room. pose proof (cp_hdr_len p). unfold zlen. cbn [length]. lia. }
  destruct (switch_built e (cp_init p) (cmd_smb p) (cmd_room p) F N RM) as [[[[p2 pay] ss] ob] BS].
  assert (BC : exists fo, build_command e (cp_init p) (255 :: cp_hdr p) (tx_buf_size p) = Ok (p2, fo, ob)).
  { unfold build_command. assert (HM : mark_len (cp_init p) = 1) by reflexivity.
    unfold data_offset, smb_pos. rewrite HM. set (off := 1 + 5 + _). cbv zeta.
    set (smb := if ctl_scb _ then Some (1 + 5) else None).
    assert (FX : off = zlen (255 :: cp_hdr p) /\ smb = if cmd_smb p then Some 6 else None).
    { unfold off, smb, cp_hdr, cmd_smb. destruct (cp_ctl_cases p) as [C _]. simpl in C.
      destruct C as [<-|[<-|[<-|[<-|[]]]]];
      destruct (sc_active (fl p)), (in_sc_handshake false (cmd_id p)); split; reflexivity. }
    destruct FX as [F1 F2]. rewrite F2. clearbody off smb. clear F2. subst off. fold (cmd_room p).
    destruct (cmd_room p <=? 0) eqn:E0; [lia|]. clear E0.
    set (sm := match (if cmd_smb p then Some 6 else None) with Some _ => true | None => false end).
    assert (SME : sm = cmd_smb p) by (unfold sm; destruct (cmd_smb p); reflexivity). rewrite SME. clear sm SME.
    rewrite BS. cbn [bind]. destruct pay; eexists; reflexivity. }
  destruct BC as [fo BC]. rewrite BC. cbn [bind].
  destruct (build_command_spec e p _ _ _ T FT HO ltac:(lia) BC) as (pay' & ss' & BS' & _ & PF).
  destruct (build_cmd_ok _ _ _ _ _ _ _ _ (cp_init_typed p T) FT RM BS') as (N' & T2 & P & BR & S).
  destruct pay' as [d|]; [|subst fo; do 3 eexists; reflexivity]. subst fo.
  assert (AQ : sc_active (fl p2) = sc_active (fl p) /\ pd_mode (fl p2) = false /\ has_mark (fl p2) = true).
  { destruct BR as [->|[(_ & fx & ->)|(_ & ->)]]; auto. }
  destruct AQ as (AQ & MQ & HQ). change (cmd_id (cp_init p)) with (cmd_id p) in S.
  destruct (cmd_body_facts p p2 d ss' P HO AQ S) as (F1 & F2 & F3 & F4 & F5 & F6 & F7).
  set (b := cmd_body p d ss') in *. clearbody b.
  assert (MK : mk_of p2 = [255]) by (unfold mk_of; rewrite HQ; auto).
  assert (FS : exists q fr, packet_finalize p2 (255 :: b) (tx_buf_size p) = Ok (q, fr)).
  { change (255 :: b) with ([255] ++ b). rewrite <- MK. destruct (macced p2 b) eqn:EM.
    - destruct (F7 eq_refl) as [M5 M8].
      pose proof (finalize_secure p2 b (tx_buf_size p) F1 F2 M8 EM M5 (proj1 (proj1 (proj2 (proj2 (proj2 T2))))) NL ltac:(left; auto)) as FS.
      cbv zeta in FS. destruct (_ >? _) in FS; [destruct FS as [FS|FS]|]; rewrite FS; do 2 eexists; reflexivity.
    - pose proof (finalize_plain p2 b (tx_buf_size p) F1 F2 F4 EM) as FS. cbv zeta in FS. rewrite FS. destruct (_ >? _); do 2 eexists; reflexivity. }
  destruct FS as (q & fr & FS). unfold send_packet. rewrite FS. cbn [bind]. destruct fr; do 3 eexists; reflexivity.
Qed.

(** * The end of an exchange *)
Definition key_ready (p : pd) : Prop := exists a b k, eph p = EphCmd (CKeyset a b k) /\ 16 <= zlen k.
Definition queued (c : cmd) : Prop := cmd_small c /\ match c with CFileTx _ _ => False | _ => True end.

Record steady (p : pd) : Prop := {
  sd_fits : phy_running p = true -> fits (cmd_id p) (eph p) /\ cmd_id p <> 124;
  sd_set : state p = SSetScbk -> phy_running p = false -> key_ready p;
  sd_q : Forall queued (cmdq p);
  sd_file : file p = None
}.

Lemma keyset_total e p : use_scbkd (fl p) = true \/ key_ready p -> exists x, keyset_complete e p = Ok x.
Proof.
  intros H. unfold keyset_complete. destruct (negb (use_scbkd (fl p))) eqn:E; [|cbn [bind]; eexists; reflexivity].
  destruct H as [H|(a & b & k & -> & L)]; [rewrite H in E; discriminate|].
  destruct (take_ok k 16 ltac:(lia)) as [d ->]. cbn [bind]. eexists; reflexivity.
Qed.

Lemma keyset_kept e p q o : keyset_complete e p = Ok (q, o) -> cmdq q = cmdq p /\ file q = file p.
Proof.
  unfold keyset_complete. intros H.
  assert (G : exists p1, cmdq p1 = cmdq p /\ file p1 = file p /\
    match state (sc_deactivate p1) with SOnline => set_rq_restart true (sc_deactivate p1) | _ => sc_deactivate p1 end = q).
  { destruct (negb _).
    - destruct (eph p) as [| | |c|]; try discriminate. destruct c; try discriminate. destruct (take_arr _ _) as [d| |]; cbn [bind] in H; try discriminate.
      exists (set_scbk d p). split; [reflexivity|]. split; [reflexivity|]. injection H as H _. exact H.
    - cbn [bind] in H. exists (set_use_scbkd false p). split; [reflexivity|]. split; [reflexivity|]. injection H as H _. exact H. }
  destruct G as (p1 & <- & <- & <-). destruct (state _); auto.
Qed.

Lemma finish_ok e cur p ok o : (state p = SSetScbk -> use_scbkd (fl p) = true) -> exists q rc o2, finish_update e cur p ok o = Ok (q, rc, o2).
Proof.
  intros H. unfold finish_update.
  assert (X : exists x, (if ok then next_ok_state e p else Ok (next_err_state e p)) = Ok x).
  { destruct ok; [|eexists; reflexivity]. unfold next_ok_state. destruct (state p) eqn:S.
    all: repeat match goal with |- exists x, (if ?b then _ else _) = _ => destruct b end; try (eexists; reflexivity).
    all: try (cbv zeta; destruct (use_scbkd (fl (set_sc_active true p))); eexists; reflexivity).
    destruct (keyset_total e p) as [x ->]; [left; auto|]. cbn [bind]. eexists; reflexivity. }
  destruct X as [[[p1 n1] o1] ->]. cbn [bind]. destruct (do_requests e p1 n1) as [[p2 n2] o2].
  destruct (st_eqb cur n2); [do 3 eexists; reflexivity|]. destruct (state_change e p2 n2). do 3 eexists; reflexivity.
Qed.

Lemma fill_ready p : 16 <= zlen (scbk (sc p)) -> cmdq (fill_local_keyset (set_sc_active true p)) = cmdq p /\
  file (fill_local_keyset (set_sc_active true p)) = file p /\ key_ready (fill_local_keyset (set_sc_active true p)).
Proof. intros H. split; [reflexivity|]. split; [reflexivity|]. exists 1, 16, (scbk (sc p)). auto. Qed.
Lemma kept_sc p : cmdq (sc_deactivate p) = cmdq p /\ file (sc_deactivate p) = file p.
Proof. auto. Qed.

Lemma next_kept e p (ok : bool) p1 n1 o1 : (if ok then next_ok_state e p else Ok (next_err_state e p)) = Ok (p1, n1, o1) -> pd_typed p ->
  cmdq p1 = cmdq p /\ file p1 = file p /\ (n1 = SSetScbk -> key_ready p1).
Proof.
  intros H T. assert (L : 16 <= zlen (scbk (sc p))).
  { destruct T as (_ & _ & _ & W & _). destruct W as (_ & [W1 W2] & _). unfold zlen. lia. }
  destruct ok; unfold next_ok_state, next_err_state in H; destruct (state p) eqn:S.
  all: repeat match type of H with context [if ?b then _ else _] => destruct b end; try (injection H as <- <- <-; split; [reflexivity|split; [reflexivity|discriminate]]).
  - injection H as <- <- <-. destruct (fill_ready p L) as (x1 & x2 & x3). auto.
  - destruct (keyset_complete e p) as [[q o]| |] eqn:E; cbn [bind] in H; try discriminate. inv H.
    destruct (keyset_kept _ _ _ _ E). split; auto. split; auto. discriminate.
Qed.

Lemma restart_kept p : cmdq (state_reset true (set_rq_restart false p)) = cmdq p /\ file (state_reset true (set_rq_restart false p)) = file p /\
  eph (state_reset true (set_rq_restart false p)) = eph p.
Proof. auto. Qed.
Lemma offline_kept v p : cmdq (set_rq_offline v p) = cmdq p /\ file (set_rq_offline v p) = file p /\ eph (set_rq_offline v p) = eph p.
Proof. auto. Qed.
Lemma event_kept v p : cmdq (set_rq_event v p) = cmdq p /\ file (set_rq_event v p) = file p /\ eph (set_rq_event v p) = eph p.
Proof. auto. Qed.
Lemma requests_kept e p n p2 n2 o2 : do_requests e p n = (p2, n2, o2) ->
  cmdq p2 = cmdq p /\ file p2 = file p /\ eph p2 = eph p /\ (n2 = SSetScbk -> n = SSetScbk).
Proof.
  unfold do_requests. destruct (_ || _); [|intros H; inv H; auto].
  assert (G1 : exists pa na, (if rq_restart p then (state_reset true (set_rq_restart false p), SChlng) else (p, n)) = (pa, na) /\
    cmdq pa = cmdq p /\ file pa = file p /\ eph pa = eph p /\ (na = SSetScbk -> n = SSetScbk)).
  { destruct (rq_restart p); do 2 eexists; (split; [reflexivity|]); [|auto]. destruct (restart_kept p) as (a & b & c). repeat split; auto. discriminate. }
  destruct G1 as (pa & na & -> & a1 & a2 & a3 & a4). cbv beta iota.
  assert (G2 : exists pb nb, (if rq_offline pa then (set_rq_offline false pa, SOffline) else (pa, na)) = (pb, nb) /\
    cmdq pb = cmdq p /\ file pb = file p /\ eph pb = eph p /\ (nb = SSetScbk -> n = SSetScbk)).
  { destruct (rq_offline pa); do 2 eexists; (split; [reflexivity|]); [|auto]. destruct (offline_kept false pa) as (a & b & c). rewrite a, b, c. repeat split; auto. discriminate. }
  destruct G2 as (pb & nb & -> & b1 & b2 & b3 & b4). cbv beta iota.
  destruct (event_kept false pb) as (c1 & c2 & c3).
  destruct (rq_event pb); intros H; injection H as <- <- <-; rewrite ?c1, ?c2, ?c3; auto.
Qed.

Lemma change_kept e p n q o : state_change e p n = (q, o) -> cmdq q = cmdq p /\ file q = file p /\ eph q = eph p.
Proof.
  intros H. unfold state_change in H. destruct n; try (inv H; auto; fail).
  destruct (sc_setup_fields (e_rand e) p) as [s ->] in H. inv H. auto.
Qed.

Lemma finish_steady e p ok o0 q rc o : finish_update e (state p) p ok o0 = Ok (q, rc, o) -> fin_pre p -> bytes (e_rand e) ->
  Forall queued (cmdq p) -> file p = None -> steady q.
Proof.
  intros H FP BR Q F.
  assert (P : phy_running q = false /\ cmdq q = cmdq p /\ file q = file p /\ (state q = SSetScbk -> key_ready q)).
  { pose proof H as H0. unfold finish_update in H0.
    destruct (if ok then next_ok_state e p else Ok (next_err_state e p)) as [[[p1 n1] o1]| |] eqn:E; cbn [bind] in H0; try discriminate.
    pose proof (next_fx_ok _ _ _ _ _ _ E FP) as NX.
    destruct (next_kept _ _ _ _ _ _ E (cv_ty p (fp_b p FP))) as (k1 & k2 & k3).
    destruct (do_requests e p1 n1) as [[p2 n2] o2] eqn:R. destruct (requests_kept _ _ _ _ _ _ R) as (r1 & r2 & r3 & r4).
    pose proof (do_requests_fx _ _ _ _ _ _ R (nf_b _ _ _ _ NX)) as RX.
    assert (P2 : phy_state p2 = PIdle) by (apply (rf_phy _ _ _ _ _ _ RX); rewrite (nf_phy _ _ _ _ NX); apply FP).
    destruct (st_eqb (state p) n2) eqn:SE.
    - inv H0. unfold phy_running. rewrite P2. split; auto. split; [congruence|]. split; [congruence|]. intros S.
      apply st_eqb_eq in SE. rewrite (rf_state _ _ _ _ _ _ RX), (nf_state _ _ _ _ NX) in S. rewrite S in SE.
      destruct (k3 (r4 (eq_sym SE))) as (a & b & k & e1 & e2). exists a, b, k. split; auto. congruence.
    - destruct (state_change e p2 n2) as [p3 o3] eqn:C. inv H0. destruct (change_kept _ _ _ _ _ C) as (c1 & c2 & c3).
      destruct (state_change_fx _ _ _ _ _ C (rf_b _ _ _ _ _ _ RX) BR) as (_ & x2 & _ & x4 & _).
      unfold phy_running. rewrite (x2 P2). split; auto. split; [congruence|]. split; [congruence|]. intros S. rewrite x4 in S.
      destruct (k3 (r4 S)) as (a & b & k & e1 & e2). exists a, b, k. split; auto. congruence. }
  destruct P as (P1 & P2 & P3 & P4). constructor; rewrite ?P1, ?P2, ?P3; auto. discriminate.
Qed.

Lemma check_total e p : (state p = SOnline -> reply_id p = 64 -> cmd_id p = 117 -> use_scbkd (fl p) = true \/ key_ready p) ->
  exists q st o, state_check_reply e p = Ok (q, st, o).
Proof.
  intros H. unfold state_check_reply. cbv zeta. destruct (state p) eqn:S; try (do 3 eexists; reflexivity).
  unfold check_online_response. cbv zeta. destruct (reply_id p =? REPLY_ACK) eqn:E1.
  - destruct (cmd_id p =? CMD_KEYSET) eqn:E2; [|do 3 eexists; reflexivity].
    destruct (keyset_total e p) as [x ->]; [|cbn [bind]; do 3 eexists; reflexivity].
    unfold REPLY_ACK, CMD_KEYSET in *. apply H; auto; lia.
  - clear E1. destruct (_ || _); [do 3 eexists; reflexivity|]. destruct (cmd_id p =? CMD_POLL); do 3 eexists; reflexivity.
Qed.

Lemma check_kept e p q st o : state_check_reply e p = Ok (q, st, o) -> cmdq q = cmdq p /\ file q = file p /\ (state p = SSetScbk -> q = p).
Proof.
  unfold state_check_reply. cbv zeta. destruct (state p); intros H; try (inv H; repeat split; auto; discriminate).
  unfold check_online_response in H. cbv zeta in H. destruct (_ =? _).
  - destruct (_ =? _); [|inv H; repeat split; auto]. destruct (keyset_complete e p) as [[x y]| |] eqn:K; cbn [bind] in H; try discriminate. inv H.
    destruct (keyset_kept _ _ _ _ K). repeat split; auto. discriminate.
  - destruct (_ || _); [inv H; repeat split; auto|]. destruct (_ =? _); inv H; repeat split; auto.
Qed.

Lemma resp_ack e p l q r o : decode_response e p l = Ok (q, r, o) -> getb l 0 = 64 -> eph q = eph p.
Proof. intros H L. unfold decode_response in H. cbv zeta in H. rewrite L in H. cbn [Z.eqb Pos.eqb REPLY_ACK] in H. destruct (negb _); inv H; reflexivity. Qed.
Lemma resp_ftstat e p l q r o : decode_response e p l = Ok (q, r, o) -> getb l 0 = 122 -> file p = None -> file q = None.
Proof.
  intros H L F. unfold decode_response in H. cbv zeta in H. rewrite L in H.
  unfold file_stat_decode in H. change (file (set_reply_id 122 p)) with (file p) in H. rewrite F in H.
  vm_compute in H. inv H. exact F.
Qed.

Lemma reply_kept e p q r o : reply_case e p q r o -> cpi p -> phy_state p = PReplyWait -> file p = None ->
  file q = None /\ (reply_id q = 64 -> eph q = eph p) /\ (r <> CNone -> r <> CGeneric -> eph q = eph p).
Proof.
  intros H C P FN. destruct H as [k N _ _|k N _ _|p1 r o G S FC].
  1-2: destruct N as (R & _); destruct (rxcore_fields _ _ R) as (a1 & a2 & a3 & a4 & a5 & _); rewrite a5; split; [rewrite <- FN; exact (f_equal (fun x => file x) R)|auto].
  pose proof G as (R & [WB _] & _). destruct (rxcore_fields _ _ R) as (a1 & a2 & a3 & a4 & a5 & _).
  assert (F1 : file p1 = None) by (rewrite <- FN; exact (f_equal (fun x => file x) R)).
  assert (B1 : cbinv p1) by (apply (cbinv_rx p); auto; apply C).
  destruct (got_full _ _ _ G) as (FU & _). assert (LB : pblen p1 <= 256) by (destruct FU as (x & y & _); lia).
  rewrite <- a5. clear a1 a2 a3 a4 a5 R G S WB FN.
  destruct FC as [_ ->|_ _ _ ->|_ _ _ _ ->|k _ _ _ _ D|p2 l r o _ _ _ _ D DR].
  - auto.
  - auto.
  - split; [exact F1|]. split; [intros X; cbn in X; discriminate|intros _ X; congruence].
  - destruct (cp_decode_packet _ _ _ B1 LB D) as (_ & DC & _ & _ & _ & X). split; [rewrite <- F1; exact (f_equal (fun x => file x) DC)|].
    split; [|intros _ Y; congruence]. destruct X as [(_ & X)|X]; [auto|intros Y; congruence].
  - destruct (cp_decode_packet _ _ _ B1 LB D) as (_ & DC & _ & _ & _ & BL & NL & _ & RI & EP & _).
    assert (F2 : file p2 = None) by (rewrite <- F1; exact (f_equal (fun x => file x) DC)).
    assert (Z1 : 1 <= zlen l) by (destruct l; [congruence|rewrite zlen_cons; pose proof (zlen_nonneg l); lia]).
    destruct (decode_response_rel _ _ _ _ _ _ DR Z1) as [_ x2 _ _ _ _ x7 x8 _ _].
    split; [destruct (Z.eq_dec (getb l 0) 122) as [E|E]; [eapply resp_ftstat; eauto|destruct (x8 E) as (_ & -> & _); exact F2]|].
    split; [intros X; rewrite x2 in X; rewrite (resp_ack _ _ _ _ _ _ DR X); exact EP|].
    intros N1 N2. destruct x7 as [(_ & X)|(X & _)]; [congruence|contradiction].
Qed.

(** * One update *)
Lemma fits_key p : fits (cmd_id p) (eph p) -> cmd_id p = 117 -> key_ready p.
Proof. intros F E. rewrite E in F. destruct (F ltac:(cbn; auto 10)) as (m & X & Y & Z). destruct m; try contradiction; try discriminate. do 3 eexists. split; [exact X|exact Y]. Qed.

Lemma ended_total e ok p1 o1 : cbinv p1 -> rq_restart p1 = false ->
  (state p1 = SSetScbk -> use_scbkd (fl p1) = true) ->
  (state p1 = SOnline -> reply_id p1 = 64 -> cmd_id p1 = 117 -> use_scbkd (fl p1) = true \/ key_ready p1) ->
  phy_state p1 = (if ok : bool then PDone else PErr) ->
  exists q rc o, after_phy e (state p1) p1 o1 = Ok (q, rc, o).
Proof.
  intros B RQ S K P. unfold after_phy. destruct (check_total e p1 K) as (p2 & st & o2 & E). rewrite E.
  assert (S2 : state (state_reset false p2) = SSetScbk -> use_scbkd (fl (state_reset false p2)) = true).
  { intros X. change (state (state_reset false p2)) with (state p2) in X. change (use_scbkd (fl (state_reset false p2))) with (use_scbkd (fl p2)).
    destruct (check_kept _ _ _ _ _ E) as (_ & _ & Y).
    assert (SS : state p2 = state p1) by apply (check_reply_fx _ _ _ _ _ E B RQ).
    rewrite SS in X. rewrite (Y X). auto. }
  rewrite P. destruct ok; cbn [bind]; apply finish_ok; exact S2.
Qed.

Lemma translate_total p c : queued c -> exists q z, translate_cmd p c = Ok (q, z) /\ eph q = EphCmd c /\ cmdq q = cmdq p /\ file q = file p /\
  (0 < z -> fits z (EphCmd c) /\ z <> 124).
Proof.
  intros [Q1 Q2]. unfold translate_cmd. destruct c; try contradiction; cbv zeta; do 2 eexists; (split; [reflexivity|]); (split; [reflexivity|]); (split; [reflexivity|]); (split; [reflexivity|]); intros H.
  all: unfold CMD_OUT, CMD_LED, CMD_BUZ, CMD_TEXT, CMD_COMSET, CMD_MFG, CMD_KEYSET, CMD_ISTAT, CMD_OSTAT, CMD_LSTAT, CMD_RSTAT in *.
  all: repeat match goal with |- context [if ?b then _ else _] => destruct b end; try lia.
  all: split; [|lia]; intros X; try (eexists; split; [reflexivity|split; [exact Q1|reflexivity]]).
  all: cbn in X; lia.
Qed.

Lemma get_total e p : steady p -> exists q c o, state_get_cmd e p = Ok (q, c, o) /\ Forall queued (cmdq q) /\ file q = None /\
  (phy_running p = false -> 0 < c -> fits c (eph q) /\ c <> 124) /\ (state p = SSetScbk -> 0 < c /\ q = p).
Proof.
  intros [F S Q FN]. unfold state_get_cmd.
  assert (NF : forall c x, ~ In c [104; 105; 106; 107; 110; 128; 117; 124] -> fits c x /\ c <> 124).
  { intros c x N. split; [intros I; exfalso; apply N; cbn in *; intuition|intros ->; apply N; cbn; auto 10]. }
  destruct (state p) eqn:ST; try (do 3 eexists; (split; [reflexivity|]); (split; [exact Q|]); (split; [exact FN|]); split; [intros _ _; apply NF; cbn; intuition discriminate|discriminate]).
  - do 3 eexists; (split; [reflexivity|]); (split; [exact Q|]); (split; [exact FN|]). split; [|intros _; split; [reflexivity|auto]].
    intros R _. destruct (S eq_refl R) as (a & b & k & X & L). split; [|discriminate]. intros _. exists (CKeyset a b k). auto.
  - unfold get_online_command. destruct (cmdq p) as [|c cs] eqn:EQ.
    + unfold file_tx_get_command. rewrite FN. cbn [Z.eqb negb]. destruct (_ >? _); do 3 eexists; (split; [reflexivity|]).
      * split; [change (cmdq (set_tstamp (e_now e) p)) with (cmdq p); rewrite EQ; constructor|]. split; [exact FN|]. split; [|discriminate]. intros _ _. apply NF. cbn; intuition discriminate.
      * split; [rewrite EQ; constructor|]. split; [exact FN|]. split; [|discriminate]. intros _ X. lia.
    + inversion Q as [|? ? Q1 Q2]; subst. destruct (translate_total (set_cmdq cs p) c Q1) as (q & z & E & e1 & e2 & e3 & e4). rewrite E. cbn [bind fst snd].
      do 3 eexists; (split; [reflexivity|]). rewrite e2, e3. split; [exact Q2|]. split; [exact FN|]. split; [|discriminate]. intros _ X. rewrite e1. auto.
Qed.

Theorem update_total e p : cpi p -> steady p -> env_typed e ->
  (exists q rc o, state_update e p = Ok (q, rc, o)) \/ phy_state p = PReplyWait /\ (reply_256 e p \/ fatal_reply e p).
Proof.
  intros C S T. unfold state_update. cbv zeta. destruct (phy_running p) eqn:PR.
  2:{ left. assert (P : phy_state p = PIdle) by (destruct (ci_phy p C) as [X|X]; [auto|congruence]).
      unfold after_phy. rewrite P. destruct (get_total e p S) as (q & c & o & G & _ & _ & _ & G5). rewrite G. cbn [bind].
      destruct (c >? 0) eqn:CZ; [do 3 eexists; reflexivity|]. apply finish_ok. change (state (set_cmd_id c q)) with (state q).
      destruct (get_cmd_fx _ _ _ _ _ G (ci_b p C)) as [g1 g2 g3 g4 g5 g6 g7 g8 g9 g10]. rewrite g4. intros X. destruct (G5 X). lia. }
  pose proof (sd_fits p S PR) as [SF SN]. pose proof (hs_of_cmd p C PR) as HO.
  assert (SEND : exists q rc o, (do x <- phy_send e (set_phy_state PSend p) ;
     match x with
     | (p1, CInprog, o) => Ok (p1, CInprog, o)
     | (p1, CYield, o) => Ok (p1, CYield, o)
     | (p1, _, o) => after_phy e (state p) p1 o
     end) = Ok (q, rc, o)).
  { assert (I1 : cbinv (set_phy_state PSend p)) by (apply cbinv_phy; apply C).
    destruct (sent_total e (set_phy_state PSend p) I1 HO (proj2 (proj2 T)) SF SN) as (p1 & ok & o1 & B). unfold phy_send. rewrite B. cbn [bind].
    destruct ok; [cbn [bind]; do 3 eexists; reflexivity|]. cbn [bind].
    assert (CS : cmd_sent e (set_phy_state PSend p) p1 false o1) by (assert (FT : fread_typed e) by exact (proj2 (proj2 T)); apply build_and_send_spec; auto; apply I1).
    destruct (cmd_sent_fx _ _ _ _ _ I1 CS) as [s1 s2 s3 s4 s5].
    pose proof (tcore_fields _ _ s1) as (t1 & t2 & t3 & t4 & t5 & t6 & t7 & t8 & t9 & t10 & t11 & t12 & t13 & t14 & t15 & t16 & t17 & t18 & t19 & t20 & t21 & t22 & t23 & t24 & t25 & t26 & t27 & t28).
    change (state (set_phy_state PSend p)) with (state p) in t2. rewrite <- t2. change (state p1) with (state (set_phy_state PErr p1)).
    apply (ended_total e false).
    - apply cbinv_phy; auto.
    - simpl. simpl in t9. rewrite t9. apply C.
    - simpl. simpl in t20. rewrite t2, t20. intros X. apply (ci_set p C X).
    - simpl. intros _ _ X. right. simpl in t12, t17. rewrite t12 in X. destruct (fits_key p SF X) as (a & b & k & e1 & e2).
      exists a, b, k. split; auto. simpl. rewrite t17. exact e1.
    - reflexivity. }
  unfold phy_state_update. destruct (phy_state p) eqn:P.
  - left. unfold phy_running in PR. rewrite P in PR. discriminate.
  - left. rewrite (set_phy_same p PSend P) in SEND. exact SEND.
  - (* a reply *)
    destruct (process_total e p C P T (sd_file p S)) as [(p1 & r & o1 & PRO)|X]; [left|right; auto].
    destruct (ci_rx p C P) as (W & Y & Q). assert (MO : pd_mode (fl p) = false) by apply (ci_b p C). assert (SK : skip_seq (fl p) = false) by apply (ci_b p C).
    pose proof (process_reply_case e p p1 r o1 MO SK W (proj1 T) PRO) as RC.
    destruct (reply_kept _ _ _ _ _ RC C P (sd_file p S)) as (K1 & K2 & K3).
    apply reply_case_fx in RC; auto; [|apply C]. destruct RC as [c1 c2 c3 c4 c5 c6 c7 c8 c9 c10].
    pose proof (wcore_fields _ _ c1) as (v1 & v2 & v3 & v4 & v5 & v6 & v7 & v8 & v9 & v10 & v11 & v12 & v13 & v14 & v15 & v16 & v17 & v18 & v19 & _).
    assert (EN : forall ok x, fl x = fl p1 -> state x = state p1 -> cmd_id x = cmd_id p1 -> reply_id x = reply_id p1 -> eph x = eph p1 -> rq_restart x = rq_restart p1 ->
       cbinv x -> phy_state x = (if ok : bool then PDone else PErr) -> exists q rc o, after_phy e (state p) x o1 = Ok (q, rc, o)).
    { intros ok x e1 e2 e3 e4 e5 e6 e7 e8. rewrite <- v2, <- e2. apply (ended_total e ok); auto.
      - rewrite e6, v8. apply C.
      - rewrite e1, e2, v2. intros X. apply c6. apply (ci_set p C X).
      - rewrite e1, e2, e3, e4. intros _ X1 X2. right. rewrite v9 in X2. destruct (fits_key p SF X2) as (a & b & k & f1 & f2).
        exists a, b, k. split; auto. rewrite e5, (K2 X1). exact f1. }
    unfold phy_reply_wait. rewrite PRO. cbn [bind].
    assert (DN : forall x, x = set_tstamp (e_now e) p1 \/ x = p1 -> exists q rc o, after_phy e (state p) (set_phy_state PDone (if sc_active (fl x) then set_sc_tstamp (e_now e) x else x)) o1 = Ok (q, rc, o)).
    { intros x X. apply (EN true); destruct X as [->| ->]; destruct (sc_active _); try reflexivity; cbgi c2. }
    assert (ER : exists q rc o, after_phy e (state p) (set_phy_state PErr p1) o1 = Ok (q, rc, o)) by (apply (EN false); auto; apply cbinv_phy; auto).
    destruct r; cbv zeta; cbn [bind].
    all: try exact ER.
    all: try (do 3 eexists; reflexivity).
    + apply DN. auto.
    + destruct (_ >? _); [|cbn [bind]; do 3 eexists; reflexivity]. destruct (_ <? _); cbn [bind]; [do 3 eexists; reflexivity|exact ER].
    + exfalso. destruct c3 as [?|[?|[?|[?|?]]]]; discriminate.
    + exfalso. destruct c3 as [?|[?|[?|[?|?]]]]; discriminate.
    + destruct (_ && _); cbn [bind]; [apply DN; auto|exact ER].
  - left. destruct (e_now e - phy_tstamp p <? wait_ms p); [cbn [bind]; do 3 eexists; reflexivity|exact SEND].
  - left. unfold phy_running in PR. rewrite P in PR. discriminate.
  - left. unfold phy_running in PR. rewrite P in PR. discriminate.
Qed.

(** * Runs *)
Lemma ended_steady e ok p1 o1 q o : ended e (state p1) ok p1 o1 q o -> cbinv p1 -> 0 <= retry p1 <= 8 ->
  (sc_active (fl p1) = true -> state p1 = SOnline \/ state p1 = SSetScbk) -> rq_restart p1 = false -> bytes (e_rand e) ->
  Forall queued (cmdq p1) -> file p1 = None -> steady q.
Proof.
  intros (p2 & st & o2 & E & F) B R A RQ BR Q FN.
  destruct (check_reply_fx _ _ _ _ _ E B RQ) as (x1 & x2 & x3 & x4 & x5 & x6 & x7 & x8).
  destruct (check_kept _ _ _ _ _ E) as (k1 & k2 & _).
  rewrite <- x4 in F. change (state p2) with (state (state_reset false p2)) in F.
  eapply finish_steady; [exact F| |exact BR| |].
  - constructor.
    + apply cbinv_reset; auto.
    + reflexivity.
    + simpl. lia.
    + simpl. rewrite x4. intros X. apply A. auto.
    + simpl. intros X. destruct (x7 X) as (y1 & y2 & _). rewrite x4. auto.
  - simpl. rewrite k1. exact Q.
  - simpl. rewrite k2. exact FN.
Qed.

Lemma upd_steady e p q rc o : cpi p -> steady p -> env_typed e -> upd_case e p q rc o -> steady q.
Proof.
  intros C S (T1 & T2 & T3) U. pose proof (ci_b _ C) as I. destruct S as [SF SS SQ SN].
  assert (EQ : forall x y, cmdq y = cmdq x -> file y = file x -> steady x -> phy_running x = true -> phy_running y = true -> cmd_id y = cmd_id x -> eph y = eph x -> steady y).
  { intros x y e1 e2 [f1 f2 f3 f4] e3 e4 e5 e6. constructor; rewrite ?e1, ?e2, ?e5, ?e6; auto. congruence. }
  destruct U as [P L ->|p1 c o P G K ->|p1 c o1 o P G K F|p1 o SD CS ->|p1 o1 o SD CS E|P RC L|p1 P RC L RT ->
                |p1 o P RC L RT E|p1 o P RC ->|p1 r o1 o P RC K E|p1 r o1 o P RC K E].
  - constructor; auto.
  - destruct (get_total e p ltac:(constructor; auto)) as (q & c' & o' & G' & g1 & g2 & g3 & g4). rewrite G in G'. injection G' as <- <- <-.
    assert (PR : phy_running p = false) by (unfold phy_running; rewrite P; auto).
    constructor; simpl; auto. intros _ X. discriminate.
  - destruct (get_total e p ltac:(constructor; auto)) as (q' & c' & o' & G' & g1 & g2 & g3 & g4). rewrite G in G'. injection G' as <- <- <-.
    destruct (get_cmd_fx _ _ _ _ _ G I) as [h1 h2 h3 h4 h5 h6 h7 h8 h9 h10].
    assert (I1 : cbinv (set_cmd_id c p1)) by (cbgi h1).
    assert (FP : fin_pre (set_cmd_id c p1)).
    { constructor; auto; simpl; rewrite ?h2, ?h3, ?h4, ?h5, ?h6; auto; try apply C. rewrite (ci_rq _ C). discriminate. }
    rewrite <- h4 in F. change (state p1) with (state (set_cmd_id c p1)) in F. eapply finish_steady; eauto.
  - assert (I1 : cbinv (set_phy_state PSend p)) by (apply cbinv_phy; auto).
    destruct (cmd_sent_fx _ _ _ _ _ I1 CS) as [s1 s2 s3 s4 s5].
    pose proof (tcore_fields _ _ s1) as (t1 & t2 & t3 & t4 & t5 & t6 & t7 & t8 & t9 & t10 & t11 & t12 & t13 & t14 & t15 & t16 & t17 & t18 & t19 & t20 & t21 & t22 & t23 & t24 & t25 & t26 & t27 & t28).
    pose proof (sending_phy _ _ SD) as PR. destruct (SF PR) as [SF1 SF2].
    apply (EQ p); auto; simpl; try (simpl in *; congruence).
    + simpl in s5. destruct s5; [auto|contradiction].
    + constructor; auto.
  - assert (I1 : cbinv (set_phy_state PSend p)) by (apply cbinv_phy; auto).
    destruct (cmd_sent_fx _ _ _ _ _ I1 CS) as [s1 s2 s3 s4 s5].
    pose proof (tcore_fields _ _ s1) as (t1 & t2 & t3 & t4 & t5 & t6 & t7 & t8 & t9 & t10 & t11 & t12 & t13 & t14 & t15 & t16 & t17 & t18 & t19 & t20 & t21 & t22 & t23 & t24 & t25 & t26 & t27 & t28).
    pose proof (sending_phy _ _ SD) as PR. destruct (SF PR) as [SF1 SF2].
    simpl in t2, t4, t21, t9, t14, s5. rewrite <- t2 in E. change (state p1) with (state (set_phy_state PErr p1)) in E.
    apply ended_steady in E; auto; simpl; rewrite ?t2, ?t4, ?t21, ?t9, ?t14; auto; try apply C; [apply cbinv_phy; auto|]. destruct s5 as [->|]; [auto|contradiction].
  - assert (PR : phy_running p = true) by (unfold phy_running; rewrite P; auto).
    destruct (reply_kept _ _ _ _ _ RC C P SN) as (K1 & _ & K3). destruct (ci_rx _ C P) as (W & Y & Q). apply reply_case_fx in RC; auto. destruct RC as [c1 c2 c3 c4 c5 c6 c7 c8 c9 c10].
    pose proof (wcore_fields _ _ c1) as (v1 & v2 & v3 & v4 & v5 & v6 & v7 & v8 & v9 & v10 & _).
    apply (EQ p); auto; [congruence|constructor; auto|unfold phy_running; rewrite v3, P; auto|apply K3; discriminate].
  - assert (PR : phy_running p = true) by (unfold phy_running; rewrite P; auto).
    destruct (reply_kept _ _ _ _ _ RC C P SN) as (K1 & _ & K3). destruct (ci_rx _ C P) as (W & Y & Q). apply reply_case_fx in RC; auto. destruct RC as [c1 c2 c3 c4 c5 c6 c7 c8 c9 c10].
    pose proof (wcore_fields _ _ c1) as (v1 & v2 & v3 & v4 & v5 & v6 & v7 & v8 & v9 & v10 & _).
    apply (EQ p); auto; simpl; [congruence|constructor; auto|apply K3; discriminate].
  - destruct (reply_kept _ _ _ _ _ RC C P SN) as (K1 & _ & K3). destruct (ci_rx _ C P) as (W & Y & Q). apply reply_case_fx in RC; auto. destruct RC as [c1 c2 c3 c4 c5 c6 c7 c8 c9 c10].
    pose proof (wcore_fields _ _ c1) as (v1 & v2 & v3 & v4 & v5 & v6 & v7 & v8 & v9 & v10 & _).
    rewrite <- v2 in E. change (state p1) with (state (set_phy_state PErr p1)) in E.
    apply ended_steady in E; auto; simpl; rewrite ?v2, ?v4, ?v8, ?v10; auto; try apply C; [apply cbinv_phy; auto|]. intros X. apply (ci_act _ C); auto.
  - assert (PR : phy_running p = true) by (unfold phy_running; rewrite P; auto).
    destruct (reply_kept _ _ _ _ _ RC C P SN) as (K1 & _ & K3). destruct (ci_rx _ C P) as (W & Y & Q). apply reply_case_fx in RC; auto. destruct RC as [c1 c2 c3 c4 c5 c6 c7 c8 c9 c10].
    pose proof (wcore_fields _ _ c1) as (v1 & v2 & v3 & v4 & v5 & v6 & v7 & v8 & v9 & v10 & _).
    apply (EQ p); auto; simpl; [congruence|constructor; auto|apply K3; discriminate].
  - destruct (reply_kept _ _ _ _ _ RC C P SN) as (K1 & _ & K3). destruct (ci_rx _ C P) as (W & Y & Q). apply reply_case_fx in RC; auto. destruct RC as [c1 c2 c3 c4 c5 c6 c7 c8 c9 c10].
    pose proof (wcore_fields _ _ c1) as (v1 & v2 & v3 & v4 & v5 & v6 & v7 & v8 & v9 & v10 & _).
    destruct (stamped_fx e r p1) as (a & b & ES). rewrite ES in E.
    rewrite <- v2 in E. change (state p1) with (state (set_phy_state PDone (set_tstamp a (set_sc_tstamp b p1)))) in E.
    apply ended_steady in E; auto; simpl; rewrite ?v2, ?v4, ?v8, ?v10; auto; try apply C; [cbgi c2|]. intros X. apply (ci_act _ C); auto.
  - destruct (reply_kept _ _ _ _ _ RC C P SN) as (K1 & _ & K3). destruct (ci_rx _ C P) as (W & Y & Q). apply reply_case_fx in RC; auto. destruct RC as [c1 c2 c3 c4 c5 c6 c7 c8 c9 c10].
    pose proof (wcore_fields _ _ c1) as (v1 & v2 & v3 & v4 & v5 & v6 & v7 & v8 & v9 & v10 & _).
    rewrite <- v2 in E. change (state p1) with (state (set_phy_state PErr p1)) in E.
    apply ended_steady in E; auto; simpl; rewrite ?v2, ?v4, ?v8, ?v10; auto; try apply C; [apply cbinv_phy; auto|]. intros X. apply (ci_act _ C); auto.
Qed.

Lemma new_steady k n i p : new_pd k n i = Some p -> steady p.
Proof.
  intros H. unfold new_pd in H. cbv zeta in H.
  assert (G : forall q, cmdq q = [] -> file q = None -> phy_state q = PIdle -> state q = SInit -> steady q).
  { intros q a b c d. constructor; unfold phy_running; rewrite ?a, ?b, ?c, ?d; auto; try discriminate. }
  destruct (i_scbk i).
  - injection H as <-. apply G; reflexivity.
  - destruct (enforce _); [discriminate|]. injection H as <-. apply G; reflexivity.
Qed.

Lemma steady_same p q : steady p -> phy_state q = phy_state p -> cmd_id q = cmd_id p -> eph q = eph p -> state q = state p -> file q = file p -> Forall queued (cmdq q) -> steady q.
Proof.
  intros [f1 f2 f3 f4] a b c d f g. constructor; unfold phy_running, key_ready in *; rewrite ?a, ?b, ?c, ?d, ?f; auto.
Qed.

Lemma do_steady c p q o : cp_call_typed c -> careful_cp c -> cpi p -> steady p -> cp_do c p = Ok (q, o) -> steady q.
Proof.
  intros T K C S H. destruct c as [e|e c| |enf inst ign other do_set| |]; cbn [cp_do] in H.
  - destruct (state_update e p) as [[[p1 rc] o1]| |] eqn:U; cbn [bind] in H; try discriminate. simpl in H. inv H.
    eapply upd_steady; eauto. eapply cpi_case; eauto.
  - destruct (cp_send_command e p c) as [[p1 ok] o1] eqn:E. simpl in H. inv H. unfold cp_send_command in E.
    destruct (negb _); [injection E as <- <- <-; exact S|]. cbv zeta in E.
    assert (ENQ : queued c -> (if zlen (cmdq p) <? pool p then (set_cmdq (cmdq p ++ [c]) p, true, []) else (p, false, [])) = (q, ok, o) -> steady q).
    { intros QC. destruct (_ <? _); intros X; injection X as <- <- <-; [|exact S]. apply (steady_same p); auto.
      simpl. apply Forall_app. split; [apply S|]. constructor; auto. }
    cbn [careful_cp] in K. destruct c; try (apply ENQ; [split; [exact K|exact Logic.I]|exact E]).
    + destruct (_ || _); [injection E as <- <- <-; exact S|]. apply ENQ; [split; [exact K|exact Logic.I]|exact E].
    + unfold file_tx_command in E. rewrite (sd_file p S) in E. injection E as <- <- <-. exact S.
  - inv H. apply (steady_same p); auto. constructor.
  - inv H. unfold cp_modify_flag. destruct other; [exact S|]. cbv zeta. simpl fst.
    assert (G : forall x, set_fl (fl p) x = p -> steady x).
    { intros x g6. assert (EX : x = set_fl (fl x) p) by (rewrite <- g6; destruct x; reflexivity). clear g6.
      generalize dependent (fl x). intros y ->. apply (steady_same p); auto. apply S. }
    destruct enf, inst, ign; apply G; destruct p; reflexivity.
  - contradiction.
  - inv H. apply (steady_same p); auto. apply S.
Qed.

Lemma runs_steady k n i h p : cp_runs k n i h p -> Forall (fun x => careful_cp (ce_call x)) h -> steady p.
Proof.
  intros R. induction R as [p T N|h p c q o R IH T H]; intros F; [eapply new_steady; eauto|].
  inversion F; subst. eapply do_steady; eauto. eapply cp_runs_inv; eauto.
Qed.

Theorem cp_total k n i h p e : cp_runs k n i h p -> Forall (fun x => careful_cp (ce_call x)) h -> env_typed e ->
  (exists q o, cp_do (Update e) p = Ok (q, o)) \/ phy_state p = PReplyWait /\ (reply_256 e p \/ fatal_reply e p).
Proof.
  intros R F T. destruct (update_total e p (cp_runs_inv _ _ _ _ _ R) (runs_steady _ _ _ _ _ R F) T) as [(q & rc & o & E)|X]; [left|auto].
  cbn [cp_do]. rewrite E. cbn [bind]. do 2 eexists; reflexivity.
Qed.
