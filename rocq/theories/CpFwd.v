(** CP: what a refresh makes of a frame that is there, in the forward direction. *)
From Verif Require Import Base ListLemmas Crc SpecCrc CrcProofs CrcBurst Aes AesProofs Rb RbProofs
  Types Sc ScProofs Phy PhyCheck File Pd Cp SpecRx SpecFrame SpecSec SpecSession RxProofs RxFwd PdRx PdCore PhyTx PdTx PdReply
  PdStep PdRun PdWire PdFwd PdSec PdHist2 WireSec CpCtx SpecPd SpecCp SpecCpRun CpTx CpRx CpStep CpInv CpEdge CpFacts CpSum CpWire CpHist.
From Coq Require Import ZifyBool ZifyNat.
Ltac Zify.zify_post_hook ::= Z.div_mod_to_equations.
Local Opaque aes_ecb_encrypt aes_cbc_encrypt aes_cbc_decrypt mac_of RB_SIZE osdp_mac enc1 cap_entries osdp_encrypt encrypt_data.

(* f is the first frame (from a PD) among the bytes the panel holds or hears; rest follows it *)
Definition next_reply (e : env) (p : pd) (f rest : list Z) : Prop :=
  f_shape true f /\ zlen f <= 255 /\
  exists noise mk, arrived e p = noise ++ mk ++ f ++ rest /\ ~ In 83 noise /\ (mk = [] \/ mk = [255]).

Lemma reply_frame e p f rest : cpi p -> env_typed e -> phy_state p = PReplyWait -> next_reply e p f rest ->
  exists p1, got_frame e p p1 /\ frame_of p1 = f /\ rb_contents (rb p1) = rest /\ rx_sync p1 /\
    cbinv p1 /\ full p1 /\ bytes f /\ rxcore p1 = rxcore p /\
    (f_intact f -> f_mine (address p) f -> f_busy f -> process_reply e p = Ok (set_seqn (seqn p - 1) p1, CRetry, [])) /\
    (f_intact f -> f_mine (address p) f -> ~ f_busy f -> f_seq f = seqn p mod 4 ->
      process_reply e p = bind (decode_packet p1) (fun y => match y with (p2, DErr _) => Ok (p2, CGeneric, []) | (p2, DData l) => decode_response e p2 l end)) /\
    (f_intact f -> f_mine (address p) f -> ~ f_busy f -> f_seq f <> seqn p mod 4 -> process_reply e p = Ok (nak 4 p1, CGeneric, [])) /\
    (~ f_intact f \/ ~ f_mine (address p) f -> process_reply e p = Ok (p1, CGeneric, [])).
Proof.
  intros I ET P (F & L & noise & mk & A & N & M).
  destruct (ci_rx p I P) as (W & Y & S0). pose proof (ci_b p I) as B.
  assert (MD : pd_mode (fl p) = false) by apply B. assert (SK : skip_seq (fl p) = false) by apply B.
  destruct (receive_frame e p noise mk f rest) as (q & X & Ef & G & R & S); auto.
  { apply ET. } { rewrite MD. exact F. }
  exists q. pose proof G as (RX & W1 & _ & _ & PL & _).
  assert (I1 : cbinv q) by (eapply cbinv_rx; eauto; apply W1).
  destruct (got_full _ _ _ G) as (FU & _).
  assert (BF : bytes f) by (rewrite <- Ef; apply bytes_sub; apply W1).
  assert (L6 : 6 <= zlen f) by apply F.
  assert (EA : address q = address p) by exact (f_equal (fun x => address x) RX).
  assert (EQ : seqn q = seqn p) by exact (f_equal (fun x => seqn x) RX).
  assert (M1 : pd_mode (fl q) = false) by apply I1. assert (SK1 : skip_seq (fl q) = false) by apply I1.
  do 8 (split; [assumption|]).
  pose proof (cp_frame q f M1 SK1 BF L6) as C. rewrite EA, EQ in C. unfold process_reply. rewrite X, bind_Ok.
  destruct C as [(C1 & C2)|[(C1 & C2 & C3)|[(C1 & C2 & C3 & C4)|[(C1 & C2 & C3 & C4 & C5)|(C1 & C2 & C3 & C4 & C5)]]]].
  - rewrite C2. repeat split; intros; tauto || reflexivity.
  - rewrite C3. repeat split; intros; tauto || reflexivity.
  - rewrite C4. repeat split; intros; tauto || reflexivity.
  - rewrite C5. repeat split; intros; tauto || reflexivity.
  - rewrite C5. repeat split; intros; tauto || reflexivity.
Qed.

Lemma update_reply e p : phy_state p = PReplyWait -> state_update e p =
  bind (phy_reply_wait e p) (fun x => match x with
    | (p1, CInprog, o) => Ok (p1, CInprog, o)
    | (p1, CYield, o) => Ok (p1, CYield, o)
    | (p1, _, o) => after_phy e (state p) p1 o
    end).
Proof. intros P. unfold state_update, phy_running, phy_state_update. rewrite P. reflexivity. Qed.

(* BUSY: the command is kept, its number is taken back *)
Lemma busy_step e p f rest : cpi p -> env_typed e -> phy_state p = PReplyWait -> next_reply e p f rest ->
  f_intact f -> f_mine (address p) f -> f_busy f ->
  exists q, state_update e p = Ok (q, CYield, []) /\ phy_state q = PWait /\ wait_ms q = 800 /\ phy_tstamp q = e_now e /\
    seqn q = seqn p - 1 /\ state q = state p /\ cmd_id q = cmd_id p /\ retry q = retry p /\ eph q = eph p.
Proof.
  intros I ET P N F1 F2 F3. destruct (reply_frame e p f rest I ET P N) as (p1 & G & Ef & R & S & I1 & FU & BF & RX & X & _).
  specialize (X F1 F2 F3). rewrite update_reply by auto. unfold phy_reply_wait. rewrite X, !bind_Ok. eexists. split; [reflexivity|].
  simpl. repeat (split; [try reflexivity; exact (f_equal (fun x => state x) RX) || exact (f_equal (fun x => cmd_id x) RX) ||
     exact (f_equal (fun x => retry x) RX)|]). exact (f_equal (fun x => eph x) RX).
Qed.

(* nothing there *)
Lemma silent_reply e p q r o : arrived e p = [] -> reply_case e p q r o -> r = CNoData.
Proof.
  intros A [k N K S|k N K C|p1 r' o' G S F]; auto; exfalso.
  - destruct N as (_ & (W1 & _) & _ & (noise & E & _) & X). rewrite A in E. destruct noise; [|discriminate]. simpl in E.
    assert (Y : pblen q = 5) by (destruct K as [->| ->]; apply X).
    unfold pending in E. apply (f_equal (@length Z)) in E. rewrite app_length in E.
    destruct W1 as (_ & _ & W3 & _). rewrite firstn_length, W3, Y in E. simpl in E. lia.
  - destruct G as (_ & _ & _ & _ & _ & (noise & mk & E & _) & F1 & _). rewrite A in E. symmetry in E.
    apply app_eq_nil in E as [_ E]. apply app_eq_nil in E as [_ E]. apply app_eq_nil in E as [E _].
    destruct F1 as (_ & _ & _ & F2 & _). rewrite E in F2. rewrite zlen_nil in F2. lia.
Qed.
