(** Packets that arrive in pieces over several refreshes. *)
From Verif Require Import Base ListLemmas Crc SpecCrc CrcProofs CrcBurst Aes AesProofs Rb RbProofs
  Types Sc ScProofs Phy PhyCheck File Pd Cp SpecRx SpecFrame SpecSec SpecSession SpecPd SpecLink RxProofs RxFwd PdRx PdCore PhyTx PdTx PdReply
  PdStep PdRun PdWire PdFwd PdSec PdHist2 MacProofs WireSec CpCtx SpecCp SpecCpRun CpTx CpRx CpStep CpInv CpFwd Chunk Trip.
From Coq Require Import ZifyBool ZifyNat.
Ltac Zify.zify_post_hook ::= Z.div_mod_to_equations.
Local Opaque aes_ecb_encrypt aes_cbc_encrypt aes_cbc_decrypt mac_of RB_SIZE osdp_mac enc1 osdp_encrypt encrypt_data.

Lemma core_buffers p q : rxcore q = rxcore p -> buffers_only p q.
Proof. intros R. exists (has_mark (fl q)), (rb q), (tstamp q), (pblen q), (plen q), (pbuf q). exact (core_with p q R). Qed.

Lemma check_bytes_stamp p f : tstamp (fst (check_packet_bytes p f)) = tstamp p.
Proof.
  rewrite check_bytes_eq. unfold seq_check, get_seq. destruct (check_crc f); [|reflexivity]. cbv zeta.
  repeat match goal with |- context [if ?b then _ else _] => destruct b; cbn [fst snd] end; reflexivity.
Qed.

Lemma check_packet_stamp e p q k : rx_wf p -> Forall bytes (e_rx e) -> check_packet e p = Ok (q, k) -> tstamp q = tstamp (listen e p).
Proof.
  intros [Hb Hf] He H. pose proof (listen_spec e p Hb He) as X. cbv zeta in X. unfold check_packet in H.
  unfold listen in *. destruct (channel_receive (e_rx e) (rb p) 0) as [r1 got]. cbv zeta in X, H.
  set (p2 := if pd_mode (fl (set_rb r1 p)) && _ && _ then _ else _) in *.
  destruct X as (B2 & C2 & E1 & E2 & E3 & E4 & E5 & T2). clearbody p2.
  assert (Y : forall x, (exists p3, x = Ok (p3, @None pkterr) /\ rx_base p3 /\ 0 <= pblen p3 <= 256 /\ tstamp p3 = tstamp p2) ->
     match x with Ok (p3, None) => do p4 <- collect (plen p3 - pblen p3) p3 ;
      if negb (pblen p4 =? plen p4) then Ok (p4, KWait)
      else Ok (check_packet_bytes p4 (sub (pbuf p4) (mark_len p4) (plen p4 - mark_len p4))) | _ => UB NegLen end = Ok (q, k) -> tstamp q = tstamp p2).
  { intros x (p3 & -> & B3 & R3 & T3) Z. destruct (collect (plen p3 - pblen p3) p3) as [p4| |] eqn:C; try discriminate Z. cbn [bind] in Z.
    destruct B3 as (W & _ & L & _). destruct (collect_ok _ _ _ W L R3 C) as (_ & _ & _ & _ & _ & _ & _ & _ & _ & T4 & _).
    destruct (negb (pblen p4 =? plen p4)). { injection Z as <- <-. congruence. }
    injection Z as Z. pose proof (check_bytes_stamp p4 (sub (pbuf p4) (mark_len p4) (plen p4 - mark_len p4))) as T5. rewrite Z in T5. cbn [fst] in T5. congruence. }
  destruct (plen p2 =? 0) eqn:E.
  - assert (F : plen p2 = 0) by lia. assert (G : 0 <= pblen p2 <= 5) by (destruct Hf; lia).
    destruct (check_header_ok p2 B2 F G) as (p3 & r & CH & B3 & _ & _ & R3 & _ & T3 & _).
    rewrite CH in H. cbn [bind] in H. destruct r as [er|n]. { injection H as <- <-. exact T3. }
    cbn [bind] in H. apply (Y (Ok (set_plen n p3, None))); [|exact H]. exists (set_plen n p3). split; [reflexivity|]. split; [exact B3|]. simpl. split; [lia|exact T3].
  - cbn [bind] in H. apply (Y (Ok (p2, None))); [|exact H]. exists p2. split; [reflexivity|]. split; [exact B2|]. split; [destruct Hf; lia|reflexivity].
Qed.

Lemma listen_stamp e p : rx_base p -> rb_contents (rb p) = [] -> fits_ring e -> pd_mode (fl p) = true ->
  tstamp (listen e p) = if (pblen p =? 0) && negb (zlen (heard (e_rx e)) =? 0) then e_now e else tstamp p.
Proof.
  intros Hb R F M. unfold listen. pose proof (channel_receive_spec (e_rx e) (rb p) 0 (proj1 Hb) ltac:(lia)) as X. cbv zeta in X.
  destruct (channel_receive (e_rx e) (rb p) 0) as [r1 got]. cbn [fst snd] in X. destruct X as (_ & _ & X). rewrite R in X. cbn [length] in X.
  cbv zeta. simpl pd_mode. simpl pblen. rewrite M. unfold fits_ring in F.
  assert (Nat.leb (length (heard (e_rx e))) (RB_SIZE - 1 - 0) = true) as Le by (apply Nat.leb_le; lia). rewrite Le in X.
  unfold zlen in *. destruct (pblen p =? 0); simpl; [|reflexivity].
  destruct (Z.of_nat (length (heard (e_rx e))) =? 0) eqn:E; simpl.
  - replace (got >? 0) with false by lia. reflexivity.
  - replace (got >? 0) with true by lia. reflexivity.
Qed.

(* the time a device keeps is the time the first byte of the packet came *)
Lemma wait_stamp e p q k : rx_wf p -> rb_contents (rb p) = [] -> chunk_ok e -> pd_mode (fl p) = true -> check_packet e p = Ok (q, k) ->
  tstamp q = (if (pblen p =? 0) && negb (zlen (heard (e_rx e)) =? 0) then e_now e else tstamp p).
Proof. intros W R [C F] M H. rewrite (check_packet_stamp e p q k W C H). exact (listen_stamp e p (proj1 W) R F M). Qed.

(* --- device --- *)
Lemma in_time_core t0 p q e : rxcore q = rxcore p -> prompt t0 p e -> prompt t0 q e.
Proof.
  intros R [A B]. split; [exact A|]. pose proof (f_equal (fun x => sc_active (fl x)) R) as R1. pose proof (f_equal sc_tstamp R) as R2. cbv beta in R1.
  change (sc_active (fl q) = sc_active (fl p)) in R1. change (sc_tstamp q = sc_tstamp p) in R2. rewrite R1, R2. exact B.
Qed.

Lemma timeout_not t0 p e : prompt t0 p e -> sc_timeout e p = p.
Proof.
  intros [_ B]. unfold sc_timeout, PD_SC_TIMEOUT. destruct (sc_active (fl p)) eqn:S; simpl; [|reflexivity].
  specialize (B eq_refl). replace (e_now e - sc_tstamp p >? 8000) with false by lia. reflexivity.
Qed.

Lemma pd_dozes es : forall p t0 t f rest, pd_inv p -> rb_contents (rb p) = [] -> Forall chunk_ok es -> Forall env_ok es ->
  f_shape false f -> zlen f <= 255 -> (0 < pblen p -> t0 <= tstamp p) -> Forall (prompt t0 p) es ->
  ahead p (stream es ++ t) f rest -> (length rest < length t)%nat ->
  exists q, idled p es q /\ rxcore q = rxcore p /\ pd_inv q /\ rb_contents (rb q) = [] /\ ahead q t f rest.
Proof.
  induction es as [|e es IH]; intros p t0 t f rest I R HC HE Sh L Ts Tm A Lt.
  { exists p. split; [constructor|]. split; [reflexivity|]. split; [exact I|]. split; [exact R|exact A]. }
  inversion HC as [|? ? C1 C2]; subst. inversion HE as [|? ? E1 E2]; subst. inversion Tm as [|? ? T1 T2]; subst.
  destruct I as [Ib If Is]. pose proof (iv_rxb _ Ib) as Bx. pose proof (iv_mode _ Ib) as Md.
  assert (W : rx_wf p) by (split; assumption).
  assert (Sh' : f_shape (negb (pd_mode (fl p))) f) by (rewrite Md; exact Sh).
  assert (A' : ahead p (heard (e_rx e) ++ (stream es ++ t)) f rest).
  { unfold stream in A. cbn [map concat] in A. rewrite <- app_assoc in A. exact A. }
  destruct (ahead_step e p (stream es ++ t) f rest W Is R C1 Sh' L A' ltac:(rewrite app_length; lia)) as (q & k & H & K & NF & Sy & Rq & Aq & Z0).
  pose proof (wait_stamp e p q k W R C1 Md H) as Tq.
  assert (Rc : rxcore q = rxcore p) by exact (proj1 NF).
  assert (Wq : rx_wf q) by exact (no_frame_wf _ _ _ _ NF).
  assert (Bq : binv q) by (apply (binv_rx p); [exact Ib|exact Rc|exact (proj1 Wq)]).
  assert (Ts' : 0 < pblen q -> t0 <= tstamp q /\ e_now e - tstamp q < 200 \/ k = KNoData).
  { intros P. destruct K as [-> | ->]; [|right; reflexivity]. left. rewrite Tq. destruct T1 as [T1 _].
    destruct (pblen p =? 0) eqn:P0; simpl; [|specialize (Ts ltac:(destruct If; lia)); lia].
    destruct (zlen (heard (e_rx e)) =? 0) eqn:H0; simpl; [|lia].
    exfalso. destruct NF as (_ & _ & _ & (n & Ar & _) & _). rewrite (arrived_all e p (proj2 C1) R) in Ar.
    assert (heard (e_rx e) = []) as Hn by (unfold zlen in H0; destruct (heard (e_rx e)); [reflexivity|cbn [length] in H0; lia]).
    unfold pending in Ar. rewrite Hn, R in Ar. replace (pblen p) with 0 in Ar by lia. rewrite Rq in Ar. cbn [Z.to_nat firstn app] in Ar.
    pose proof (f_equal (@length Z) Ar) as Ln. cbn [length] in Ln. rewrite !app_length, !firstn_length in Ln. pose proof (proj1 (proj2 (proj2 (proj1 Wq)))) as Lb. rewrite Lb in Ln. cbn [length] in Ln. lia. }
  assert (RF : pd_refresh e p = Ok (q, [])).
  { rewrite refresh_eq, (timeout_not t0 p e T1), rap_eq, H. cbn [bind]. destruct K as [-> | ->]; cbn [rap_k bind pd_finish]; [|reflexivity].
    assert (P : 0 < pblen q) by (destruct NF as (_ & _ & _ & _ & P & _); exact P).
    destruct (Ts' P) as [X|X]; [|discriminate]. unfold RESP_TOUT. replace (e_now e - tstamp q <? 200) with true by lia. reflexivity. }
  assert (Iq : pd_inv q) by (constructor; [exact Bq|exact (proj2 Wq)|exact Sy]).
  assert (Tm' : Forall (prompt t0 q) es). { eapply Forall_impl; [|exact T2]. intros a Ha. exact (in_time_core t0 p q a Rc Ha). }
  assert (Ts2 : 0 < pblen q -> t0 <= tstamp q). { intros P. destruct (Ts' P) as [X|X]; [exact (proj1 X)|]. subst k. specialize (Z0 eq_refl). lia. }
  destruct (IH q t0 t f rest Iq Rq C2 E2 Sh L Ts2 Tm' Aq Lt) as (r & D & Rr & Ir & Rbr & Ar).
  exists r. split; [exact (id_cons p e q es r RF (core_buffers p q Rc) D)|]. split; [congruence|]. split; [exact Ir|]. split; [exact Rbr|exact Ar].
Qed.

(* --- panel --- *)
Lemma cp_waits es : forall p t f rest, cpi p -> phy_state p = PReplyWait -> rb_contents (rb p) = [] -> Forall chunk_ok es -> Forall env_typed es ->
  f_shape true f -> zlen f <= 255 -> Forall (fun e => e_now e - phy_tstamp p <= 200) es ->
  ahead p (stream es ++ t) f rest -> (length rest < length t)%nat ->
  exists q, waiting p es q /\ rxcore q = rxcore p /\ cpi q /\ rb_contents (rb q) = [] /\ ahead q t f rest.
Proof.
  induction es as [|e es IH]; intros p t f rest I S R HC HE Sh L Tm A Lt.
  { exists p. split; [constructor|]. split; [reflexivity|]. split; [exact I|]. split; [exact R|exact A]. }
  inversion HC as [|? ? C1 C2]; subst. inversion HE as [|? ? E1 E2]; subst. inversion Tm as [|? ? T1 T2]; subst.
  pose proof (cv_mode _ (ci_b _ I)) as Md. destruct (ci_rx _ I S) as (W & Is & _).
  assert (Sh' : f_shape (negb (pd_mode (fl p))) f) by (rewrite Md; exact Sh).
  assert (A' : ahead p (heard (e_rx e) ++ (stream es ++ t)) f rest).
  { unfold stream in A. cbn [map concat] in A. rewrite <- app_assoc in A. exact A. }
  destruct (ahead_step e p (stream es ++ t) f rest W Is R C1 Sh' L A' ltac:(rewrite app_length; lia)) as (q & k & H & K & NF & Sy & Rq & Aq & Z0).
  assert (Rc : rxcore q = rxcore p) by exact (proj1 NF).
  assert (Tq : phy_tstamp q = phy_tstamp p) by exact (f_equal (fun x => phy_tstamp x) Rc).
  assert (Sq : phy_state q = phy_state p) by exact (f_equal (fun x => phy_state x) Rc).
  assert (U : state_update e p = Ok (q, CInprog, [])).
  { rewrite update_reply by exact S. unfold phy_reply_wait, process_reply. rewrite H. cbn [bind].
    destruct K as [-> | ->]; cbn [bind]; rewrite Tq; unfold RESP_TOUT; replace (e_now e - phy_tstamp p >? 200) with false by lia; reflexivity. }
  assert (Iq : cpi q) by (eapply upd_inv; [exact I|exact E1|exact (cpi_case _ _ _ _ _ I E1 U)]).
  assert (Tm' : Forall (fun e => e_now e - phy_tstamp q <= 200) es) by (rewrite Tq; exact T2).
  destruct (IH q t f rest Iq (eq_trans Sq S) Rq C2 E2 Sh L Tm' Aq Lt) as (r & D & Rr & Ir & Rbr & Ar).
  exists r. split; [exact (wg_cons p e q es r U (core_buffers p q Rc) D)|]. split; [congruence|]. split; [exact Ir|]. split; [exact Rbr|exact Ar].
Qed.

(* --- receiver of either kind --- *)
Lemma deliver_ahead p s f rest : pending p = [] -> delivers s f rest -> ahead p s f rest.
Proof. intros P (n & mk & E & N & M). exists n, mk. rewrite P. split; [exact E|]. split; [exact N|exact M]. Qed.

Lemma like_same {A} (x y : res (pd * A)) : like x y -> same_result x y.
Proof. destruct x as [[a u]|x|x], y as [[b v]|y|y]; cbn; intros H; try (exact H). destruct H as [H ->]. split; [exact (core_buffers a b (eq_sym H))|reflexivity]. Qed.

Lemma deliver es e p f rest : rx_wf p -> rx_sync p -> pending p = [] -> Forall chunk_ok (es ++ [e]) -> f_shape (negb (pd_mode (fl p))) f -> zlen f <= 255 ->
  delivers (stream (es ++ [e])) f rest -> (length rest < length (heard (e_rx e)))%nat ->
  exists q q1, waited p es q /\ rxcore q = rxcore p /\ check_packet e q = Ok (check_packet_bytes q1 f) /\ rxcore q1 = rxcore p /\
    frame_of q1 = f /\ got_frame e q q1 /\ rb_contents (rb q1) = rest /\ rx_sync q1 /\ bytes f.
Proof.
  intros W Sy P C Sh L D Lt. apply Forall_app in C as [C1 C2]. inversion C2 as [|? ? Ce _]; subst.
  assert (R : rb_contents (rb p) = []) by (unfold pending in P; apply app_eq_nil in P; tauto).
  assert (St : stream (es ++ [e]) = stream es ++ heard (e_rx e)).
  { unfold stream. rewrite map_app, concat_app. cbn [map concat]. rewrite app_nil_r. reflexivity. }
  rewrite St in D. destruct (ahead_wait es p (heard (e_rx e)) f rest W Sy R C1 Sh L (deliver_ahead p _ f rest P D) Lt) as (q & Wt & Rc & Wq & Sq & Rq & Aq).
  assert (Sh' : f_shape (negb (pd_mode (fl q))) f) by (rewrite (rxcore_pd_mode _ _ Rc); exact Sh).
  destruct (ahead_last e q f rest Wq Sq Rq Ce Sh' L Aq) as (n & mk & Ar & N & M).
  destruct (receive_frame e q n mk f rest Wq Sq (proj1 Ce) Ar N M Sh' L) as (q1 & H & F & G & Rb & S1).
  exists q, q1. split; [exact Wt|]. split; [exact Rc|]. split; [exact H|]. split; [rewrite (proj1 G); exact Rc|]. split; [exact F|].
  split; [exact G|]. split; [exact Rb|]. split; [exact S1|]. rewrite <- F. apply frame_bytes. exact (proj2 (proj2 (proj2 (proj1 (proj1 (proj2 G)))))).
Qed.
