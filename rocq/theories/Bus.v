(** A device that hears the traffic of others. *)
From Verif Require Import Base ListLemmas Crc SpecCrc CrcProofs CrcBurst Aes AesProofs Rb RbProofs
  Types Sc ScProofs Phy PhyCheck File Pd SpecRx SpecFrame SpecSec SpecSession RxProofs RxFwd PdRx PdCore PhyTx PdTx PdReply
  PdStep PdRun PdWire PdFwd SpecPd SpecLink SpecTalk Cp CpCtx SpecCp Chunk ChunkRun SpecBus.
From Coq Require Import ZifyBool ZifyNat.
Ltac Zify.zify_post_hook ::= Z.div_mod_to_equations.
Local Opaque aes_ecb_encrypt aes_cbc_encrypt aes_cbc_decrypt mac_of RB_SIZE osdp_mac enc1 osdp_encrypt encrypt_data.

(* --- streams --- *)
Lemma benign_stray a b s : b <> 83 -> benign a (b :: s) -> benign a s.
Proof.
  intros N H. inversion H as [|b' s' N' H' E|f s' Sh L B V A1 A2 H' E|f s' Sh B I83 H' E]; subst; auto.
  - destruct (shape_som _ _ Sh) as (t & ->). cbn [app] in E. injection E as Eb _. congruence.
  - destruct (shape_som _ _ Sh) as (t & ->). cbn [app] in E. injection E as Eb _. congruence.
Qed.
Lemma benign_skip a n s : ~ In 83 n -> benign a (n ++ s) -> benign a s.
Proof.
  induction n as [|b n IH]; intros N H; [exact H|]. cbn [app] in H. apply IH; [intros X; apply N; right; exact X|]. apply (benign_stray a b); [intros ->; apply N; left; reflexivity|exact H].
Qed.
Lemma benign_noise a n s : ~ In 83 n -> benign a s -> benign a (n ++ s).
Proof.
  induction n as [|b n IH]; intros N H; [exact H|]. cbn [app]. apply bn_stray; [intros ->; apply N; left; reflexivity|]. apply IH; [intros X; apply N; right; exact X|exact H].
Qed.
Lemma benign_start a t : benign a (83 :: t) ->
  exists f s, 83 :: t = f ++ s /\ benign a s /\
    ((f_shape false f /\ zlen f <= 255 /\ bytes f /\ f_intact f /\ f_addr f <> a /\ f_addr f <> 127) \/ (f_shape true f /\ bytes f /\ ~ In 83 (tl f))).
Proof.
  intros H. inversion H as [|b' s' N' H' E|f s' Sh L B V A1 A2 H' E|f s' Sh B I83 H' E]; subst.
  - congruence.
  - exists f, s'. auto 10.
  - exists f, s'. auto 10.
Qed.

(* the header of a packet from another device *)
Lemma check_header_reply q f more rest : rx_base q -> 5 <= pblen q <= 256 -> pd_mode (fl q) = true ->
  pending q ++ more = (if has_mark (fl q) then [255] else []) ++ f ++ rest -> f_shape true f -> check_header_bytes q = inl KSkip.
Proof.
  intros (_ & _ & L & B) R MD P (F0 & F1 & F2 & F3).
  assert (G : forall i, 0 <= i < 4 -> getb (pbuf q) (mark_len q + i) = nth (Z.to_nat i) f 0).
  { intros i Hi. unfold getb.
    assert (M : mark_len q = if has_mark (fl q) then 1 else 0) by reflexivity.
    rewrite <- (nth_firstn (Z.to_nat (pblen q)) (Z.to_nat (mark_len q + i)) (pbuf q)) by (destruct (has_mark (fl q)); lia).
    rewrite <- (app_nth1 _ (rb_contents (rb q) ++ more)) by (rewrite firstn_length; destruct (has_mark (fl q)); lia).
    rewrite app_assoc. fold (pending q). rewrite P. rewrite M. destruct (has_mark (fl q)).
    - rewrite app_nth2 by (simpl; lia). simpl length. rewrite app_nth1 by (unfold zlen in *; lia). f_equal. lia.
    - simpl app. rewrite app_nth1 by (unfold zlen in *; lia). reflexivity. }
  unfold check_header_bytes. cbv zeta. rewrite !G by lia.
  change (Z.to_nat 0) with 0%nat. change (Z.to_nat 1) with 1%nat.
  rewrite F0. change (83 =? PKT_SOM) with true. cbn [negb].
  assert (T : Z.testbit (nth 1 f 0) 7 = true).
  { unfold f_reply in F1. rewrite <- F1. rewrite testbit_div by lia. change (2 ^ 7) with 128.
    assert (Bq : byte (nth 1 f 0)). { change 1%nat with (Z.to_nat 1). rewrite <- (G 1) by lia. apply nth_byte; auto. }
    unfold byte in Bq. lia. }
  rewrite T, MD. reflexivity.
Qed.

(* two packets at the head of the same bytes *)
Lemma shape_same f g r s : f_shape false f -> f_shape false g -> f ++ r = g ++ s -> f = g /\ r = s.
Proof.
  intros (_ & _ & L1 & N1) (_ & _ & L2 & N2) E. apply app_inv_length; [|exact E].
  assert (X : forall i, (i < 6)%nat -> nth i f 0 = nth i g 0).
  { intros i Hi. rewrite <- (app_nth1 f r) by (unfold zlen in N1; lia). rewrite E. apply app_nth1. unfold zlen in N2; lia. }
  unfold f_len in *. rewrite (X 2%nat), (X 3%nat) in L1 by lia. unfold zlen in *. lia.
Qed.
Lemma shape_clash f g r s : f_shape false f -> f_shape true g -> f ++ r = g ++ s -> False.
Proof.
  intros (_ & F & _ & N1) (_ & G & _ & N2) E. assert (X : nth 1 f 0 = nth 1 g 0).
  { rewrite <- (app_nth1 f r) by (unfold zlen in N1; lia). rewrite E. apply app_nth1. unfold zlen in N2; lia. }
  unfold f_reply in *. rewrite X in F. congruence.
Qed.

Lemma undisturbed_core p q : rxcore q = rxcore p -> undisturbed p q.
Proof.
  intros R. destruct (core_buffers p q R) as (m & r & t & a & b & c & ->). exists (phy_state p), m, r, t, a, b, c. destruct p; reflexivity.
Qed.
Lemma undisturbed_reset p q : rxcore q = rxcore p -> undisturbed p (state_reset false q).
Proof. intros R. destruct (core_buffers p q R) as (m & r & t & a & b & c & ->). exists PIdle, m, r, t, 0, 0, c. destruct p; reflexivity. Qed.

Lemma pending_nil p : rx_base p -> 0 <= pblen p -> pending p = [] -> pblen p = 0 /\ rb_contents (rb p) = [].
Proof.
  intros (_ & _ & L & _) P H. unfold pending in H. apply app_eq_nil in H. destruct H as [H1 H2]. split; [|exact H2].
  apply (f_equal (@length Z)) in H1. rewrite firstn_length, L in H1. cbn [length] in H1. lia.
Qed.

Lemma firstn_all_room e p : (length (rb_contents (rb p)) + length (heard (e_rx e)) < RB_SIZE)%nat -> arrived e p = pending p ++ heard (e_rx e).
Proof. intros H. unfold arrived. rewrite firstn_all2 by lia. reflexivity. Qed.

Lemma skipn_In {A} n (l : list A) x : In x (skipn n l) -> In x l.
Proof. intros H. rewrite <- (firstn_skipn n l). apply in_or_app. right. exact H. Qed.

(* one refresh *)
Lemma bus_step e p s : pd_reach p -> in_time e p -> benign (address p) (pending p ++ heard (e_rx e) ++ s) ->
  exists q, pd_do (Refresh e) p = Ok (q, []) /\ undisturbed p q /\ benign (address p) (pending q ++ s) /\
    (s = [] -> heard (e_rx e) = [] -> pending q = [] \/ (length (pending q) < length (pending p))%nat).
Proof.
  intros RP [ET RM FR SS] BN. pose proof (reach_inv p RP) as I. destruct I as [Ib If Is].
  pose proof (iv_rxb _ Ib) as Bx. pose proof (iv_mode _ Ib) as Md. assert (W : rx_wf p) by (split; assumption).
  pose proof (PdRun.env_typed e ET) as EO. pose proof (eo_rx e EO) as HB.
  assert (CK : chunk_ok e) by (split; [exact HB|unfold fits_ring; clear - RM; lia]).
  rewrite app_assoc, <- (firstn_all_room e p RM) in BN.
  assert (TO : sc_timeout e p = p).
  { unfold sc_timeout, PD_SC_TIMEOUT. destruct (sc_active (fl p)) eqn:A; simpl; [|reflexivity]. specialize (SS A). replace (e_now e - sc_tstamp p >? 8000) with false by lia. reflexivity. }
  assert (RF : pd_do (Refresh e) p = bind (bind (check_packet e p) (rap_k e)) (pd_finish e)).
  { unfold pd_do. rewrite refresh_eq, TO, rap_eq. reflexivity. }
  (* where the receive buffer points *)
  assert (K : forall noise q, rxcore q = rxcore p -> rx_sync q -> 0 < pblen q -> arrived e p = noise ++ pending q -> ~ In 83 noise ->
     exists f r, pending q ++ s = (if has_mark (fl q) then [255] else []) ++ f ++ r /\ benign (address p) r /\ (exists t, f = 83 :: t) /\
       ((f_shape false f /\ zlen f <= 255 /\ bytes f /\ f_intact f /\ f_addr f <> address p /\ f_addr f <> 127) \/ (f_shape true f /\ bytes f /\ ~ In 83 (tl f)))).
  { intros noise q C S P E N. destruct (S P) as (_ & t & S2). rewrite E, <- app_assoc in BN. apply benign_skip in BN; [|exact N]. rewrite S2 in BN. rewrite <- app_assoc in BN.
    apply benign_skip in BN; [|apply mark_no_som]. cbn [app] in BN. destruct (benign_start _ _ BN) as (f & r & E1 & B1 & D). exists f, r. split; [rewrite S2, <- app_assoc; cbn [app]; rewrite E1; reflexivity|].
    split; [exact B1|]. split; [|exact D]. destruct D as [[Sh _]|[Sh _]]; exact (shape_som _ _ Sh). }
  assert (MQ : forall q, rxcore q = rxcore p -> pd_mode (fl q) = true) by (intros q C; rewrite (rxcore_pd_mode p q C); exact Md).
  destruct (check_packet_cases e p W HB) as
    [(X & q & C & P & HM & H & Pq & (noise & E & _ & N & _) & S & P5 & Bq)|[(q & k & X & G & S & HK)|(q & X & G & S & noise & E & N & _)]].
  - (* the packet would be too long *)
    exfalso. destruct (K noise q C (S Is) ltac:(lia) E N) as (f & r & E1 & _ & _ & [(Sh & L & _)|(Sh & _)]).
    + pose proof (check_header_pre q f s r Bq ltac:(lia) E1 ltac:(rewrite (MQ q C); exact Sh)) as Y. rewrite H in Y. injection Y as Y. unfold mark_len in Y. rewrite HM in Y. lia.
    + pose proof (check_header_reply q f s r Bq ltac:(lia) (MQ q C) E1 Sh) as Y. rewrite H in Y. discriminate.
  - pose proof G as (C & Wq & TS & (noise & E & N & _) & G5). rewrite X in RF. cbn [bind] in RF.
    destruct k; try (destruct G5; fail).
    + (* not a header *)
      exfalso. destruct G5 as [P5 P0]. destruct (K noise q C (S Is) ltac:(lia) E N) as (f & r & E1 & _ & _ & [(Sh & L & _)|(Sh & _)]).
      * pose proof (check_header_pre q f s r (proj1 Wq) ltac:(lia) E1 ltac:(rewrite (MQ q C); exact Sh)) as Y. rewrite (HK ltac:(auto)) in Y. discriminate.
      * pose proof (check_header_reply q f s r (proj1 Wq) ltac:(lia) (MQ q C) E1 Sh) as Y. rewrite (HK ltac:(auto)) in Y. discriminate.
    + (* part of a packet *)
      destruct G5 as (P0 & RB0 & PL). destruct (K noise q C (S Is) P0 E N) as (f & r & E1 & B1 & (t & ST) & D).
      assert (TQ : e_now e - tstamp q < 200).
      { destruct FR as [FR|FR]; [|destruct TS as [-> | ->]; lia]. destruct (pending_nil p Bx ltac:(destruct If; lia) FR) as [p0 r0].
        rewrite (wait_stamp e p q KWait W r0 CK Md X). rewrite p0. cbn [Z.eqb andb].
        destruct (zlen (heard (e_rx e)) =? 0) eqn:H0; cbn [negb]; [|lia]. exfalso.
        assert (HN : heard (e_rx e) = []) by (unfold zlen in H0; destruct (heard (e_rx e)); [reflexivity|cbn [length] in H0; lia]).
        rewrite (firstn_all_room e p RM), FR, HN in E. cbn [app] in E. symmetry in E. apply app_eq_nil in E. destruct E as [_ E].
        destruct (pending_nil q (proj1 Wq) ltac:(lia) E). lia. }
      exists q. split; [rewrite RF; cbn [rap_k bind pd_finish]; unfold RESP_TOUT; replace (e_now e - tstamp q <? 200) with true by lia; reflexivity|].
      split; [exact (undisturbed_core p q C)|]. rewrite E, <- app_assoc in BN. apply benign_skip in BN; [|exact N]. split; [exact BN|].
      (* complete packets are not waited for *)
      intros -> HN. exfalso. rewrite app_nil_r in E1.
      assert (LQ : zlen (pending q) = pblen q).
      { unfold pending. rewrite RB0, app_nil_r. unfold zlen. rewrite firstn_length. destruct Wq as [(_ & _ & LB & _) [Fq|Fq]]; lia. }
      assert (LE : zlen (pending q) = mark_len q + zlen f + zlen r) by (rewrite E1, !zlen_app; unfold mark_len; destruct (has_mark (fl q)); [change (zlen [255]) with 1|change (@zlen Z []) with 0]; lia).
      pose proof (zlen_nonneg r) as ZR.
      destruct PL as [[PL1 PL2]|PL].
      * destruct D as [((_ & _ & _ & F6) & _)|((_ & _ & _ & F6) & _)]; unfold mark_len in LE; destruct (has_mark (fl q)); lia.
      * destruct Wq as [Bq Fq]. destruct Fq as [Fq|(Fq1 & Fq2 & Fq3)]; [lia|].
        destruct D as [(Sh & _)|(Sh & _)].
        -- pose proof (check_header_pre q f [] r Bq ltac:(lia) ltac:(rewrite app_nil_r; exact E1) ltac:(rewrite (MQ q C); exact Sh)) as Y. rewrite Fq3 in Y. injection Y as Y. lia.
        -- pose proof (check_header_reply q f [] r Bq ltac:(lia) (MQ q C) ltac:(rewrite app_nil_r; exact E1) Sh) as Y. rewrite Fq3 in Y. discriminate.
    + (* a packet of another device *)
      destruct G5 as [P5 P0]. destruct (K noise q C (S Is) ltac:(lia) E N) as (f & r & E1 & B1 & (t & ST) & [(Sh & L & _)|(Sh & _ & N83)]).
      { exfalso. pose proof (check_header_pre q f s r (proj1 Wq) ltac:(lia) E1 ltac:(rewrite (MQ q C); exact Sh)) as Y. rewrite (HK ltac:(auto)) in Y. discriminate. }
      exists (state_reset false q). split; [rewrite RF; reflexivity|]. split; [exact (undisturbed_reset p q C)|]. rewrite pending_reset.
      pose proof (proj1 (proj2 (proj2 (proj1 Wq)))) as LB.
      assert (L5 : length (firstn (Z.to_nat (pblen q)) (pbuf q)) = 5%nat) by (rewrite firstn_length, LB, P5; reflexivity).
      split.
      * unfold pending in E1. rewrite <- app_assoc in E1. apply (f_equal (skipn 5)) in E1. rewrite skipn_app, L5, skipn_all2 in E1 by lia. change (skipn (5 - 5) (rb_contents (rb q) ++ s)) with (rb_contents (rb q) ++ s) in E1. change (@nil Z ++ (rb_contents (rb q) ++ s)) with (rb_contents (rb q) ++ s) in E1. rewrite E1.
        rewrite app_assoc, skipn_app. destruct Sh as (_ & _ & _ & F6). unfold zlen in F6. rewrite ST in *. cbn [tl] in N83. cbn [length] in F6.
        assert (Z5 : (5 - length ((if has_mark (fl q) then [255%Z] else []) ++ 83%Z :: t) = 0)%nat) by (rewrite app_length; cbn [length]; destruct (has_mark (fl q)); cbn [length]; lia).
        rewrite Z5. change (skipn 0 r) with r. apply benign_noise; [|exact B1].
        intros X1. apply N83. destruct (has_mark (fl q)); cbn [app skipn] in X1.
        -- apply (skipn_In 3 t 83 X1).
        -- apply (skipn_In 4 t 83 X1).
      * intros _ HN. right. rewrite (firstn_all_room e p RM), HN, app_nil_r in E. rewrite E, app_length. unfold pending. rewrite app_length, L5. lia.
    + (* nothing *)
      destruct G5 as [PN _]. exists q. split; [rewrite RF; reflexivity|]. split; [exact (undisturbed_core p q C)|]. split.
      * rewrite PN. rewrite E, <- app_assoc, PN in BN. apply benign_skip in BN; assumption.
      * intros _ _. left. exact PN.
  - (* a whole packet of the panel *)
    pose proof G as (C & Wq & TS & PL & P6 & (noise' & mk & E' & LM & N' & _) & Sh' & _). rewrite Md in Sh'. cbn [negb] in Sh'.
    destruct (K noise q C (S Is) ltac:(lia) E N) as (f & r & E1 & B1 & (t & ST) & D).
    assert (PF : pending q = (if has_mark (fl q) then [255] else []) ++ frame_of q ++ rb_contents (rb q)).
    { destruct (frame_in_pending q (proj1 Wq) PL P6) as (mk' & Z1 & Z2 & _). rewrite Z1. f_equal. destruct (S Is ltac:(lia)) as (_ & t' & S2). rewrite S2 in Z1. unfold mark_len in Z2. destruct (has_mark (fl q)).
      - destruct mk' as [|x [|y l]]; cbn [app] in Z1; [discriminate Z2| |rewrite !zlen_cons in Z2; pose proof (zlen_nonneg l); lia]. injection Z1 as <- _. reflexivity.
      - destruct mk' as [|x l]; [reflexivity|]. rewrite zlen_cons in Z2. pose proof (zlen_nonneg l). lia. }
    rewrite PF, <- !app_assoc in E1. apply app_inv_head in E1.
    destruct D as [(Sh & L & B & V & A1 & A2)|(Sh & _)]; [|exfalso; exact (shape_clash _ _ _ _ Sh' Sh E1)].
    destruct (shape_same _ _ _ _ Sh' Sh E1) as [EF ER].
    assert (VD : check_packet_bytes q (frame_of q) = (q, KSkip)).
    { rewrite EF. unfold check_packet_bytes. destruct Sh as (_ & _ & _ & F6). pose proof (check_crc_intact f B ltac:(lia)) as CC. destruct (check_crc f) as [n|]; [|contradiction].
      rewrite <- f_addr_ctl. assert (AQ : address q = address p) by exact (f_equal (fun x => address x) C). rewrite AQ, (MQ q C).
      replace (f_addr f =? address p) with false by lia. replace (f_addr f =? 127) with false by lia. reflexivity. }
    rewrite X, VD in RF. exists (state_reset false q). split; [rewrite RF; reflexivity|]. split; [exact (undisturbed_reset p q C)|]. rewrite pending_reset.
    split; [rewrite ER; exact B1|]. intros _ HN. right. rewrite (firstn_all_room e p RM), HN, app_nil_r in E. rewrite E, PF, !app_length. destruct Sh' as (_ & _ & _ & F6). unfold zlen in F6. lia.
Qed.

(* --- runs --- *)
Lemma undisturbed_trans p q r : undisturbed p q -> undisturbed q r -> undisturbed p r.
Proof.
  intros (s & m & x & t & a & b & c & ->) (s' & m' & x' & t' & a' & b' & c' & ->). exists s', m', x', t', a', b', c'. destruct p as []; reflexivity.
Qed.
Lemma undisturbed_refl p : undisturbed p p.
Proof. apply undisturbed_core. reflexivity. Qed.
Lemma undisturbed_view p q : undisturbed p q ->
  (address q = address p /\ seqn q = seqn p /\ sc q = sc p /\ caps q = caps p /\ peer_rx q = peer_rx p) /\ (evq q = evq p /\ has_cb q = has_cb p /\ file q = file p /\ sc_tstamp q = sc_tstamp p) /\
  (sc_active (fl q) = sc_active (fl p) /\ pd_mode (fl q) = pd_mode (fl p) /\ skip_seq (fl q) = skip_seq (fl p) /\ broadcast (fl q) = broadcast (fl p) /\ sc_capable (fl q) = sc_capable (fl p) /\ sc_disabled (fl q) = sc_disabled (fl p)
   /\ enforce (fl q) = enforce (fl p)).
Proof. intros (s & m & x & t & a & b & c & ->). repeat split. Qed.

Lemma reach_step p e q o : pd_reach p -> call_typed (Refresh e) -> pd_do (Refresh e) p = Ok (q, o) -> pd_reach q.
Proof. intros (i & n & h & R) T D. exists i, n, (mkEntry p (Refresh e) o :: h). exact (runs_step i n h p (Refresh e) q o R T D). Qed.

Lemma bus_runs es : forall p q o s, pd_reach p -> benign (address p) (pending p ++ stream es ++ s) -> bus_run p es q o ->
  pd_reach q /\ o = [] /\ undisturbed p q /\ benign (address p) (pending q ++ s).
Proof.
  induction es as [|e es IH]; intros p q o s RP BN BR; inversion BR as [|? ? q1 o1 ? ? o2 T D BR']; subst.
  - split; [exact RP|]. split; [reflexivity|]. split; [apply undisturbed_refl|exact BN].
  - unfold stream in BN. cbn [map concat] in BN. fold (stream es) in BN. rewrite <- !app_assoc in BN.
    destruct (bus_step e p (stream es ++ s) RP T BN) as (x & D' & U & B1 & _). rewrite D in D'. injection D' as -> ->.
    pose proof (reach_step p e x [] RP (it_env _ _ T) D) as RX. pose proof (undisturbed_view p x U) as ((A & _) & _).
    rewrite <- A in B1. destruct (IH x q o2 s RX B1 BR') as (R & -> & U2 & B2). split; [exact R|]. split; [reflexivity|]. split; [exact (undisturbed_trans p x q U U2)|]. rewrite A in B2. exact B2.
Qed.

Lemma bus_drains es : forall p q o, pd_reach p -> benign (address p) (pending p) -> Forall (fun e => heard (e_rx e) = []) es -> (length (pending p) <= length es)%nat -> bus_run p es q o -> pending q = [].
Proof.
  induction es as [|e es IH]; intros p q o RP BN SI LE BR; inversion BR as [|? ? q1 o1 ? ? o2 T D BR']; subst.
  - cbn [length] in LE. destruct (pending q); [reflexivity|cbn [length] in LE; lia].
  - inversion SI as [|? ? S1 S2]; subst. destruct (bus_step e p [] RP T) as (x & D' & U & B1 & LT); [rewrite S1, app_nil_r; cbn [app]; rewrite ?app_nil_r; exact BN|]. rewrite D in D'. injection D' as -> ->.
    pose proof (reach_step p e x [] RP (it_env _ _ T) D) as RX. pose proof (undisturbed_view p x U) as ((A & _) & _). rewrite app_nil_r in B1.
    apply (IH x q o2 RX); [rewrite A; exact B1|exact S2| |exact BR'].
    destruct (LT eq_refl S1) as [->|L]; [cbn [length]; lia|]. cbn [length] in LE. lia.
Qed.

Lemma drained_quiet q : pd_reach q -> pending q = [] -> quiet q.
Proof.
  intros R P. destruct (reach_inv q R) as [Ib If Is]. pose proof (iv_rxb _ Ib) as Bx. destruct (pending_nil q Bx ltac:(destruct If; lia) P) as [p0 r0].
  destruct Bx as (B1 & B2 & B3 & B4). split; [exact p0|]. split; [destruct If; lia|]. auto.
Qed.
Lemma undisturbed_step c p q : undisturbed p q -> in_step c p -> in_step c q.
Proof.
  intros U [[i1 i2 i3 i4 i5] j1 j2 j3 j4 j5 j6]. destruct (undisturbed_view p q U) as ((v1 & v2 & v3 & _) & _ & (w1 & w2 & w3 & w4 & w5 & w6 & _)).
  constructor; [constructor|..]; rewrite ?v1, ?v2, ?v3, ?w1, ?w2, ?w3, ?w4, ?w5, ?w6; assumption.
Qed.
Lemma undisturbed_line c p q : undisturbed p q -> line c p -> line c q.
Proof.
  intros U [E L]. destruct (undisturbed_view p q U) as ((v1 & v2 & v3 & _) & _ & (w1 & w2 & w3 & w4 & w5 & w6 & _)). split.
  - destruct E as [i1 i2 i3 i4 i5]. constructor; rewrite ?v1, ?w2, ?w3, ?w4; assumption.
  - destruct L as [L|L]; [left; rewrite w1, v2; exact L|right; exact (undisturbed_step c p q U L)].
Qed.
