(** Panel and device, one call after the other: a command goes out and is understood, a reply likewise. *)
From Verif Require Import Base ListLemmas Crc SpecCrc CrcProofs CrcBurst Aes AesProofs Rb RbProofs
  Types Sc ScProofs Phy PhyCheck File Pd Cp PdRun SpecRx SpecFrame SpecSec SpecSession SpecPd SpecLink RxProofs RxFwd PdRx PdCore PhyTx PdTx PdReply
  PdStep PdWire PdFwd PdSec PdHist2 MacProofs WireSec CpCtx SpecCp SpecCpRun CpTx CpRx CpStep CpInv CpEdge CpFacts CpSum CpFwd Chunk Trip ChunkRun LinkProofs LinkStep CpSend SpecHand SpecTalk Hand Line.
From Coq Require Import ZifyBool ZifyNat.
Ltac Zify.zify_post_hook ::= Z.div_mod_to_equations.
Local Opaque aes_ecb_encrypt aes_cbc_encrypt aes_cbc_decrypt mac_of RB_SIZE osdp_mac enc1 osdp_encrypt encrypt_data.

(* what linkcore leaves out, and how the transaction stands *)
Definition reqless (r : pd) : pd := set_phy_tstamp 0 (set_phy_state PIdle (set_reply_id 0 r)).
Definition reqcore (p : pd) : pd := reqless (linkcore p).

Lemma link_req p q : linkcore q = linkcore p -> reqcore q = reqcore p.
Proof. intros H. unfold reqcore. rewrite H. reflexivity. Qed.

(* the link part of two states agrees *)
Definition same_link (p q : pd) : Prop := fl q = fl p /\ sc q = sc p /\ seqn q = seqn p /\ address q = address p.

Lemma ends_c c p q : same_link c q -> ends c p -> ends q p.
Proof. intros (A & B & C & D) [e1 e2 e3 e4 e5]. constructor; rewrite ?A, ?D; assumption. Qed.
Lemma ends_p c p q : same_link p q -> ends c p -> ends c q.
Proof. intros (A & B & C & D) [e1 e2 e3 e4 e5]. constructor; rewrite ?A, ?D; assumption. Qed.
Lemma step_c c p q : same_link c q -> in_step c p -> in_step q p.
Proof. intros S [e1 e2 e3 e4 e5 e6 e7]. pose proof (ends_c c p q S e1). destruct S as (A & B & C & D). constructor; rewrite ?A, ?B, ?C, ?D; assumption. Qed.
Lemma step_p c p q : same_link p q -> in_step c p -> in_step c q.
Proof. intros S [e1 e2 e3 e4 e5 e6 e7]. pose proof (ends_p c p q S e1). destruct S as (A & B & C & D). constructor; rewrite ?A, ?B, ?C, ?D; assumption. Qed.

Lemma line_c c p q : same_link c q -> line c p -> line q p.
Proof.
  intros S [E L]. split; [exact (ends_c c p q S E)|]. destruct L as [L|L]; [left|right; exact (step_c c p q S L)].
  destruct S as (A & B & C & D). rewrite A, C. exact L.
Qed.
Lemma line_p c p q : same_link p q -> line c p -> line c q.
Proof.
  intros S [E L]. split; [exact (ends_p c p q S E)|]. destruct L as [L|L]; [left|right; exact (step_p c p q S L)].
  destruct S as (A & B & C & D). rewrite A, C. exact L.
Qed.
Lemma line_reply_c c p q : same_link c q -> line_reply c p -> line_reply q p.
Proof.
  intros S [E L]. split; [exact (ends_c c p q S E)|]. destruct L as [L|((L & M) & N)]; [left|right; split; [split; [exact (step_c c p q S L)|]|exact N]]; destruct S as (A & B & C & D).
  - rewrite A, C. exact L.
  - rewrite B. exact M.
Qed.
Lemma line_reply_p c p q : same_link p q -> line_reply c p -> line_reply c q.
Proof.
  intros S [E L]. split; [exact (ends_p c p q S E)|]. destruct L as [L|((L & M) & N)]; [left|right; split; [split; [exact (step_p c p q S L)|]|]]; destruct S as (A & B & C & D).
  - rewrite A, C. exact L.
  - rewrite B. exact M.
  - rewrite C. exact N.
Qed.

(* the panel's state, or that with another file transfer state *)
Definition with_file (x : option (option filest)) (p : pd) : pd := match x with None => p | Some f => set_file f p end.

Lemma file_link x p : same_link p (with_file x p).
Proof. destruct x; (split; [|split; [|split]]); reflexivity. Qed.
Lemma file_quiet x p : quiet p -> quiet (with_file x p).
Proof. destruct x; intros H; exact H. Qed.
Lemma file_tx x p : pd_mode (fl (with_file x p)) = pd_mode (fl p) /\ cp_hdr (with_file x p) = cp_hdr p /\ pd_hdr (with_file x p) = pd_hdr p /\ mk_of (with_file x p) = mk_of p /\
  cmd_id (with_file x p) = cmd_id p /\ reply_id (with_file x p) = reply_id p /\ pbuf (with_file x p) = pbuf p /\ rb (with_file x p) = rb p.
Proof. destruct x; repeat (split; [reflexivity|]); reflexivity. Qed.

Lemma wait_link t r s p : same_link p (set_phy_tstamp t (set_phy_state s (set_reply_id r (state_reset false p)))).
Proof. split; [|split; [|split]]; reflexivity. Qed.
Lemma wait_req t r s p : reqcore (set_phy_tstamp t (set_phy_state s (set_reply_id r (state_reset false p)))) = reqcore p.
Proof. reflexivity. Qed.
Lemma wait_fields t r s p : let q := set_phy_tstamp t (set_phy_state s (set_reply_id r (state_reset false p))) in pblen q = 0 /\ plen q = 0 /\ rb q = rb p /\ pbuf q = pbuf p.
Proof. split; [|split; [|split]]; reflexivity. Qed.
Lemma wait_quiet t r s p : quiet p -> quiet (set_phy_tstamp t (set_phy_state s (set_reply_id r (state_reset false p)))).
Proof.
  destruct (wait_fields t r s p) as (a & b & c & d). intros (_ & _ & q). split; [exact a|]. split; [exact b|]. rewrite c, d. exact q.
Qed.

Lemma env_fread e : env_typed e -> fread_typed e.
Proof. intros H. exact (proj2 (proj2 H)). Qed.

(* the panel sends a command that is not part of a handshake *)
Lemma pan_sends e c p x d ob : cpi c -> env_typed e -> phy_state c = PSend -> in_sc_handshake false (cmd_id c) = false -> 256 <= e_tx e ->
  line c p -> quiet c -> quiet p -> fits (tx_buf_size c) (sc_active (fl c)) d ->
  build_cmd_switch e (cp_init c) (cmd_smb c) (cmd_room c) = Ok (cp_init (with_file x c), Some d, None, ob) ->
  exists c1 w, state_update e c = Ok (c1, CInprog, ob ++ [OTx w]) /\ quiet c1 /\ phy_state c1 = PReplyWait /\ reqcore c1 = reqcore (with_file x c) /\ sc_active (fl c1) = sc_active (fl c) /\
  forall h, hears h w -> exists p1, takes p [] h d p1 /\ line_reply c1 p1 /\ linkcore p1 = linkcore p /\ rx_base p1 /\ rb_contents (rb p1) = [] /\ sc_active (fl p1) = sc_active (fl p).
Proof.
  intros I T PS HS TX L Qc Qp F BS. pose proof (ci_b c I) as B. pose proof (tx_buf_le c) as NL.
  destruct (file_tx x c) as (f1 & f2 & _ & _ & f3 & _). destruct (file_link x c) as (g1 & _ & g3 & _).
  pose proof (cmd_transmit e c (with_file x c) d ob (cv_mode c B) (cv_seq c B) (cv_ty c B) (env_fread e T) ltac:(apply F) HS ltac:(rewrite f1; apply B) g3 f2 ltac:(rewrite g1; reflexivity) BS) as BT.
  pose proof (line_c _ _ _ (file_link x c) L) as L'. pose proof (file_quiet x c Qc) as Qc'.
  destruct (line_cmd (with_file x c) p e (tx_buf_size c) d L' Qc' Qp ltac:(rewrite g1; exact F) ltac:(lia) ltac:(rewrite f3; exact HS)) as (c0 & m & f & TR & M & Q0 & (LC & AC) & G).
  rewrite TR in BT. cbn [with_outs bind] in BT.
  exists (set_phy_tstamp (e_now e) (set_phy_state PReplyWait (set_reply_id REPLY_INVALID (state_reset false c0)))), (m ++ f).
  split. { unfold state_update, phy_running, phy_state_update. rewrite PS. cbv iota. unfold phy_send. rewrite BT, !bind_Ok. reflexivity. }
  split; [apply wait_quiet; exact Q0|]. split; [reflexivity|]. split; [rewrite wait_req; apply link_req; exact LC|].
  split; [refine (eq_trans _ (eq_trans AC _)); [reflexivity|rewrite g1; reflexivity]|].
  intros h (_ & _ & CK & _ & D). apply (delivers_marked _ m f [] M) in D.
  destruct (G h CK D) as (p1 & TK & LR & R1 & R2 & R3 & R4). exists p1. split; [exact TK|]. split; [|auto].
  exact (line_reply_c _ _ _ (wait_link _ _ _ _) LR).
Qed.

(* the invariant holds of a device that has taken a packet *)
Lemma takes_inv e p d q : env_ok e -> pd_inv p -> takes p [] e d q -> binv q.
Proof.
  intros K [I F Y] (p1 & p2 & W & C & D). inversion W; subst p1.
  destruct (check_packet_cases e p) as [(X & _)|[(x & k & X & N & _)|(x & X & G & _)]].
  { split; [apply I|exact F]. } { apply (eo_rx e K). }
  - rewrite C in X. discriminate.
  - rewrite C in X. injection X as <- <-. destruct N as (_ & _ & _ & _ & N3). destruct N3.
  - pose proof G as (N1 & N2 & _). pose proof (binv_rx p x I N1 (proj1 N2)) as I1.
    assert (Bf : bytes (frame_of x)) by (apply frame_bytes; apply (iv_ty x I1)).
    assert (Lf : 6 <= zlen (frame_of x)). { destruct G as (_ & _ & _ & _ & _ & _ & S & _). destruct S as (_ & _ & _ & S). lia. }
    pose proof (pd_frame x (frame_of x) (iv_mode x I1) (iv_skip x I1) (iv_seq x I1) Bf Lf) as CF. rewrite C in X. injection X as X. rewrite <- X in CF.
    destruct CF as [(_ & C2)|[(_ & _ & C3)|[(_ & _ & _ & C4)|(_ & _ & _ & C4)]]]; try discriminate.
    injection C4 as ->. exact (proj1 (decode_packet_inv _ _ _ (binv_seen _ x I1) (full_seen _ x (proj1 (got_full e p x G))) D)).
Qed.

Lemma no_timeout e p : in_session e p -> sc_timeout e p = p.
Proof.
  intros H. unfold sc_timeout, PD_SC_TIMEOUT. destruct (sc_active (fl p)) eqn:A; [|reflexivity]. specialize (H A). replace (e_now e - sc_tstamp p >? 8000) with false by lia. reflexivity.
Qed.

Lemma dev_hears e p d q : in_session e p -> takes p [] e d q -> pd_refresh e p = bind (decode_command e q d) (pd_finish e).
Proof. intros S T. apply pd_hears. rewrite no_timeout by exact S. exact T. Qed.

Lemma hears_env h w : hears h w -> env_ok h.
Proof. intros (_ & (a & b & c) & _). constructor; assumption. Qed.

(* the device answers *)
Lemma dev_says2 e c p x d ob : binv p -> bytes (e_rand e) -> 256 <= e_tx e -> line_reply c p -> quiet c -> in_sc_handshake true (reply_id p) = false -> rb_contents (rb p) = [] ->
  ~ (cmd_id p = CMD_KEYSET /\ reply_id p = REPLY_ACK) -> fits (tx_buf_size p) (sc_active (fl p)) d -> nth 0 d 0 <> 121 ->
  build_switch e (after_init p) (reply_smb p) (reply_room p) = Ok (after_init (with_file x p), Some d, None, ob) ->
  exists q w, reply_phase e p = Ok (q, ob ++ [OTx w]) /\ quiet q /\ reqcore q = reqcore (with_file x p) /\ (sc_active (fl c) = false -> line c q) /\
  forall h, hears h w -> exists c1, takes c [] h d c1 /\ linkcore c1 = linkcore c /\ rx_base c1 /\ rb_contents (rb c1) = [] /\ line (state_reset false c1) q /\ sc_active (fl c1) = sc_active (fl c).
Proof.
  intros B BR TX L Qc HS RC NK F NB BS. pose proof (tx_buf_le p) as NL.
  destruct (file_tx x p) as (f1 & _ & f2 & f3 & f4 & f5 & f6 & f7). destruct (file_link x p) as (g1 & _ & g3 & _).
  assert (N : 69 <= tx_buf_size p <= 256) by apply F. assert (D1 : 1 <= zlen d) by apply F.
  pose proof (reply_transmit e p (with_file x p) d ob (iv_mode p B) (iv_ty p B) BR N ltac:(lia) HS ltac:(rewrite f1; apply B) f2 ltac:(rewrite g1; reflexivity) f3 BS) as BT.
  pose proof (line_reply_p _ _ _ (file_link x p) L) as L'.
  assert (BO : buf_ok (pbuf (with_file x p))) by (rewrite f6; split; apply (iv_rxb p B)).
  destruct (line_rep2 c (with_file x p) e (tx_buf_size p) d L' Qc BO ltac:(rewrite g1; exact F) ltac:(lia) ltac:(rewrite f5; exact HS) NB) as (p0 & m & f & TR & M & B0 & (RB & LC) & PL & G).
  rewrite TR in BT. cbn [with_outs bind] in BT. rewrite f7 in RB.
  exists (state_reset false p0), (m ++ f).
  split. { unfold reply_phase. rewrite BT, bind_Ok.
    assert (C0 : cmd_id p0 = cmd_id p) by (rewrite <- f4; exact (f_equal (fun z => cmd_id z) LC)).
    assert (R0 : reply_id p0 = reply_id p) by (rewrite <- f5; exact (f_equal (fun z => reply_id z) LC)).
    rewrite C0, R0. destruct (cmd_id p =? CMD_KEYSET) eqn:E1, (reply_id p =? REPLY_ACK) eqn:E2; cbn [andb]; try reflexivity. exfalso; apply NK; split; lia. }
  split. { apply reset_quiet; [rewrite RB; exact RC|rewrite RB; apply (iv_rxb p B)|exact B0]. }
  split; [refine (eq_trans _ (link_req _ _ LC)); reflexivity|].
  split; [exact PL|].
  intros h (_ & _ & CK & _ & D). apply (delivers_marked _ m f [] M) in D. exact (G h CK D).
Qed.
Lemma dev_says e c p x d ob : binv p -> bytes (e_rand e) -> 256 <= e_tx e -> line_reply c p -> quiet c -> in_sc_handshake true (reply_id p) = false -> rb_contents (rb p) = [] ->
  ~ (cmd_id p = CMD_KEYSET /\ reply_id p = REPLY_ACK) -> fits (tx_buf_size p) (sc_active (fl p)) d -> nth 0 d 0 <> 121 ->
  build_switch e (after_init p) (reply_smb p) (reply_room p) = Ok (after_init (with_file x p), Some d, None, ob) ->
  exists q w, reply_phase e p = Ok (q, ob ++ [OTx w]) /\ quiet q /\ reqcore q = reqcore (with_file x p) /\
  forall h, hears h w -> exists c1, takes c [] h d c1 /\ linkcore c1 = linkcore c /\ rx_base c1 /\ rb_contents (rb c1) = [] /\ line (state_reset false c1) q /\ sc_active (fl c1) = sc_active (fl c).
Proof.
  intros B BR TX L Qc HS RC NK F NB BS. destruct (dev_says2 e c p x d ob B BR TX L Qc HS RC NK F NB BS) as (q & w & X1 & X2 & X3 & _ & G).
  exists q, w. exact (conj X1 (conj X2 (conj X3 G))).
Qed.

(* a reply in the panel's hands *)
Lemma pan_hears_reply e c d q : phy_state c = PReplyWait -> takes c [] e d q ->
  state_update e c = bind (decode_response e q d) (fun x => match x with
    | (p1, CNone, o) => after_phy e (state c) (set_phy_state PDone (let p2 := set_tstamp (e_now e) p1 in if sc_active (fl p2) then set_sc_tstamp (e_now e) p2 else p2)) o
    | _ => bind (phy_reply_wait e c) (fun x => match x with
        | (p1, CInprog, o) => Ok (p1, CInprog, o)
        | (p1, CYield, o) => Ok (p1, CYield, o)
        | (p1, _, o) => after_phy e (state c) p1 o
        end) end).
Proof.
  intros PS T. rewrite update_reply by exact PS. unfold phy_reply_wait. rewrite (cp_hears e c d q T).
  destruct (decode_response e q d) as [((y & k) & o)|u|u]; try reflexivity. destruct k; reflexivity.
Qed.
