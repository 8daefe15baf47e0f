(** Whole control panel: channel locks, order of the turns, status masks. *)
From Verif Require Import Base ListLemmas Crc SpecCrc CrcProofs CrcBurst Aes AesProofs Rb RbProofs
  Types Sc ScProofs Phy PhyCheck File Pd Cp SpecRx SpecFrame SpecSec SpecSession RxProofs PdRx PdCore PhyTx PdTx PdReply
  PdStep PdRun PdWire PdFwd PdSec PdHist2 WireSec CpCtx SpecPd SpecCp SpecCpRun SpecCtx CpTx CpRx CpStep CpInv CpEdge CpFacts CpSum CpWire CpHist CpTime CpReply.
From Coq Require Import ZifyBool ZifyNat.
Ltac Zify.zify_post_hook ::= Z.div_mod_to_equations.
Local Opaque aes_ecb_encrypt aes_cbc_encrypt aes_cbc_decrypt mac_of RB_SIZE osdp_mac enc1 cap_entries osdp_encrypt encrypt_data.

(** * One turn *)

(* the channel is kept exactly while a reply is awaited *)
Lemma upd_rc e p q rc o : cpi p -> env_typed e -> state_update e p = Ok (q, rc, o) ->
  (rc = CInprog /\ phy_state q = PReplyWait /\ (phy_state p = PReplyWait -> phy_tstamp q = phy_tstamp p /\ e_now e <= phy_tstamp p + 200) /\
     (phy_state p <> PReplyWait -> phy_tstamp q = e_now e)) \/
  (rc = CYield /\ phy_state q <> PReplyWait).
Proof.
  intros I ET U. pose proof (cpi_case e p q rc o I ET U) as C. pose proof (upd_phases e p q rc o I ET U) as PH. assert (I0 := I). destruct I as [i1 i2 i3 i4 i5 i6 i7 i8].
  assert (BR : bytes (e_rand e)) by apply ET.
  assert (RC : forall p1 r o1, phy_state p = PReplyWait -> reply_case e p p1 r o1 -> reply_fx e p p1 r o1).
  { intros p1 r o1 P R. destruct (i3 P) as (W & _ & S0). apply reply_case_fx; auto. }
  assert (EN : forall p1 r o1 ok x o2, phy_state p = PReplyWait -> reply_case e p p1 r o1 -> ended e (state p) ok (set_phy_state x p1) o1 q o2 -> phy_state q = PIdle).
  { intros p1 r o1 ok x o2 P R E. destruct (RC _ _ _ P R) as [c1 c2 c3 c4 c5 c6 c7 c8 c9 c10].
    destruct (wcore_fields _ _ c1) as (w1 & w2 & w3 & w4 & w5 & w6 & w7 & w8 & _).
    apply (ended_idle _ _ _ _ _ _ _ E); simpl; auto; try congruence; try lia.
    - apply cbinv_phy; auto.
    - rewrite w2. auto. }
  destruct C as [P T -> | p1 c o P G C0 -> | p1 c o1 o P G C0 F | p1 o S CS -> | p1 o1 o S CS E | P R T | p1 P R T L -> | p1 o P R T L E
     | p1 o P R -> | p1 r o1 o P R K E | p1 r o1 o P R K E ].
  - right. split; [reflexivity|congruence].
  - right. split; [reflexivity|]. simpl. discriminate.
  - right. split; [reflexivity|]. destruct (get_cmd_fx e p p1 c o1 G i1) as [g1 g2 g3 g4 g5 g6 g7 g8 g9 g10].
    rewrite <- g4 in F. change (state p1) with (state (set_cmd_id c p1)) in F.
    rewrite (finish_idle _ _ _ _ _ _ _ F); [discriminate| |auto]. constructor; simpl; [cbgi g1 | congruence | rewrite g3; exact i4 | rewrite g4, g6; auto | congruence].
  - left. split; [reflexivity|]. split; [reflexivity|]. split; [|reflexivity]. intros X. exfalso. destruct S as [S|[S _]]; congruence.
  - right. split; [reflexivity|]. assert (CB : cbinv (set_phy_state PSend p)) by (apply cbinv_phy; auto).
    destruct (cmd_sent_fx e _ _ _ _ CB CS) as [x1 x2 x3 x4 x5].
    destruct (tcore_fields _ _ x1) as (t1 & t2 & t3 & t4 & t5 & t6 & t7 & t8 & t9 & t10 & t11 & t12 & t13 & t14 & t15 & t16 & t17 & t18 & t19 & t20 & t21 & _).
    simpl in t2, t4, t9, t21. rewrite (ended_idle _ _ _ _ _ _ _ E); simpl; auto; try congruence; try lia.
    + apply cbinv_phy; auto.
    + rewrite t21, t2. auto.
  - left. destruct (RC _ _ _ P R) as [c1 c2 c3 c4 c5 c6 c7 c8 c9 c10]. destruct (wcore_fields _ _ c1) as (w1 & w2 & w3 & w4 & w5 & w6 & w7 & w8 & _).
    unfold RESP_TOUT in T. rewrite w7 in T. split; [reflexivity|]. split; [congruence|]. split; [|congruence]. intros _. split; [exact w7|lia].
  - right. split; [reflexivity|]. simpl. discriminate.
  - right. split; [reflexivity|]. rewrite (EN _ _ _ _ _ _ P R E). discriminate.
  - right. split; [reflexivity|]. simpl. discriminate.
  - right. split; [reflexivity|]. destruct (stamped_fx e r p1) as (a & b & ST). rewrite ST in E.
    destruct (RC _ _ _ P R) as [c1 c2 c3 c4 c5 c6 c7 c8 c9 c10].
    destruct (wcore_fields _ _ c1) as (w1 & w2 & w3 & w4 & w5 & w6 & w7 & w8 & _).
    rewrite (ended_idle _ _ _ _ _ _ _ E); simpl; auto; try congruence; try lia.
    + apply cbinv_phy. cbgi c2.
    + rewrite w2. auto.
  - right. split; [reflexivity|]. rewrite (EN _ _ _ _ _ _ P R E). discriminate.
Qed.

(* place of an entry in the panel *)
Definition place (p : pd) : Z * Z * bool := (idx p, chan_id p, chn_shared (fl p)).
Lemma upd_place e p q rc o : cpi p -> env_typed e -> state_update e p = Ok (q, rc, o) -> place q = place p.
Proof.
  intros V T U. unfold place.
  assert (FR : forall p3 ok, fin_rel e p3 q ok -> idx q = idx p3 /\ chan_id q = chan_id p3 /\ chn_shared (fl q) = chn_shared (fl p3)).
  { intros p3 ok F. pose proof (fr_core _ _ _ _ F) as R. split; [exact (f_equal (fun x => idx x) R)|]. split; [exact (f_equal (fun x => chan_id x) R)|exact (f_equal (fun x => chn_shared (fl x)) R)]. }
  destruct (upd_summary e p q rc o V T U) as [[] | p1 RS PX PI FP F | p1 p3 ok st RS PR PX CK FP F].
  - congruence.
  - destruct (FR _ _ F) as (A & B & C). rewrite A, B, C, (px_idx _ _ PX), (px_chan _ _ PX), (px_shared _ _ PX). reflexivity.
  - destruct (FR _ _ F) as (A & B & C). rewrite A, B, C.
    assert (X : idx p3 = idx p1 /\ chan_id p3 = chan_id p1 /\ chn_shared (fl p3) = chn_shared (fl p1)).
    { destruct CK as [_ -> | p2 _ [_ -> | ty n k d _ _ _ ->] ->]; auto. }
    destruct X as (X1 & X2 & X3). rewrite X1, X2, X3, (px_idx _ _ PX), (px_chan _ _ PX), (px_shared _ _ PX). reflexivity.
Qed.
Lemma app_place c p q o : app_call c -> cp_do c p = Ok (q, o) -> place q = place p /\ phy_state q = phy_state p.
Proof.
  intros A D. destruct (is_update c) eqn:UC; [destruct c; try discriminate; destruct A|].
  destruct (other_eq c p q o UC D) as (E & _). destruct (ucore_fields _ _ E) as (u1 & u2 & u3 & u4 & u5 & u6 & u7 & u8 & u9 & u10 & u11 & u12 & u13 & u14 & u15 & u16 & u17 & u18 & _).
  split; [|exact u2]. unfold place. rewrite u17, u18. f_equal.
  destruct c; try destruct A; simpl in D; injection D as <- <-; try reflexivity.
  - unfold cp_send_command, file_tx_command. repeat match goal with |- context [if ?b then _ else _] => destruct b end; try reflexivity; destruct c; try reflexivity;
    repeat match goal with |- context [if ?b then _ else _] => destruct b | |- context [match ?b with _ => _ end] => destruct b end; reflexivity.
  - unfold cp_modify_flag. destruct other; [reflexivity|]. destruct enf, inst, ign; reflexivity.
Qed.

(** * Lists *)
Lemma ne_upd_same {A} i (v : A) l : (i < length l)%nat -> nth_error (upd i v l) i = Some v.
Proof. revert i. induction l as [|x t IH]; intros [|i] H; simpl in *; try lia; auto. apply IH. lia. Qed.
Lemma ne_upd_other {A} i j (v : A) l : i <> j -> nth_error (upd i v l) j = nth_error l j.
Proof. revert i j. induction l as [|x t IH]; intros [|i] [|j] H; simpl; auto; try congruence. Qed.
Lemma ne_lt {A} (l : list A) i x : nth_error l i = Some x -> (i < length l)%nat.
Proof. intros H. apply nth_error_Some. congruence. Qed.
Lemma upd_Forall {A} (P : A -> Prop) i v l : Forall P l -> P v -> Forall P (upd i v l).
Proof. intros F. revert i. induction F as [|x t Hx F IH]; intros [|i] Hv; simpl; auto. Qed.
Lemma in_lock lock ch : existsb (fun x => x =? ch) lock = true -> exists j, (j < length lock)%nat /\ nth j lock 0 = ch.
Proof.
  intros H. apply existsb_exists in H. destruct H as (x & H1 & H2). apply Z.eqb_eq in H2. subst x.
  destruct (In_nth lock ch 0 H1) as (j & J1 & J2). eauto.
Qed.
Lemma not_in_lock lock ch j : existsb (fun x => x =? ch) lock = false -> (j < length lock)%nat -> nth j lock 0 <> ch.
Proof.
  intros H J E. assert (existsb (fun x => x =? ch) lock = true); [|congruence]. apply existsb_exists. exists ch. split; [rewrite <- E; apply nth_In; auto|apply Z.eqb_refl].
Qed.

(** * The locks *)
Definition waiting (p : pd) : bool := match phy_state p with PReplyWait => true | _ => false end.
Lemma waiting_iff p : waiting p = true <-> phy_state p = PReplyWait.
Proof. unfold waiting. destruct (phy_state p); split; congruence. Qed.

Record cinv (c : ctx) : Prop := {
  cv_reach : Forall cp_reach (c_pds c);
  cv_idx : forall i p, nth_error (c_pds c) i = Some p -> idx p = Z.of_nat i;
  cv_shared : forall i j p q, i <> j -> nth_error (c_pds c) i = Some p -> nth_error (c_pds c) j = Some q -> chan_id p = chan_id q -> chn_shared (fl p) = true;
  cv_len : c_lock c = [] \/ length (c_lock c) = length (c_pds c);
  cv_lock : forall i p, nth_error (c_pds c) i = Some p -> chn_shared (fl p) = true -> (i < length (c_lock c))%nat;
  cv_held : forall i p, nth_error (c_pds c) i = Some p -> nth i (c_lock c) 0 = if chn_shared (fl p) && waiting p then chan_id p else 0;
  cv_excl : forall i j p q, i <> j -> nth_error (c_pds c) i = Some p -> nth_error (c_pds c) j = Some q -> chan_id p = chan_id q -> chan_id p <> 0 ->
    waiting p = true -> waiting q = true -> False;
  cv_cur : c_pds c = [] \/ (c_cur c < length (c_pds c))%nat
}.

(* what one turn does *)
Inductive turn (e : env) (c : ctx) (i : nat) (d : ctx) : bool -> list out -> Prop :=
| TN_passed p j : nth_error (c_pds c) i = Some p -> j <> i -> chan_id p <> 0 -> waits c j (chan_id p) -> d = c -> turn e c i d true []
| TN_done p q rc o : nth_error (c_pds c) i = Some p -> state_update e p = Ok (q, rc, o) -> c_pds d = upd i q (c_pds c) ->
    c_cur d = c_cur c -> c_nchan d = c_nchan c ->
    turn e c i d (negb (waiting q && chn_shared (fl p) && (c_nchan c =? 1))) o.

Lemma refresh_turn e c i d b o : cinv c -> env_typed e -> refresh_pd e c i = Ok (d, b, o) -> turn e c i d b o /\ cinv d.
Proof.
  intros V T H. unfold refresh_pd in H. destruct (nth_error (c_pds c) i) as [p|] eqn:NP; [|discriminate].
  pose proof (ne_lt _ _ _ NP) as LI.
  assert (RP : cp_reach p) by (apply (proj1 (Forall_forall _ _) (cv_reach _ V)); apply nth_error_In in NP; exact NP).
  pose proof (cv_idx _ V i p NP) as IX. pose proof (cv_held _ V i p NP) as HI.
  (* the lock the turn goes on with *)
  assert (AC : (if chn_shared (fl p) then acquire (c_lock c) p else Ok (Some (c_lock c))) = Ok None /\
                 (exists j, j <> i /\ chan_id p <> 0 /\ waits c j (chan_id p)) \/
               exists lock, (if chn_shared (fl p) then acquire (c_lock c) p else Ok (Some (c_lock c))) = Ok (Some lock) /\
                 length lock = length (c_lock c) /\
                 (chn_shared (fl p) = false -> lock = c_lock c) /\
                 (chn_shared (fl p) = true -> nth i lock 0 = chan_id p /\
                    (forall j q, j <> i -> nth_error (c_pds c) j = Some q -> chan_id q = chan_id p -> chan_id p <> 0 -> waiting q = false)) /\
                 (forall j, j <> i -> nth j lock 0 = nth j (c_lock c) 0)).
  { destruct (chn_shared (fl p)) eqn:SH; [|right; exists (c_lock c); repeat split; congruence].
    pose proof (cv_lock _ V i p NP SH) as LL. unfold acquire. rewrite IX, Nat2Z.id.
    destruct (Nat.leb_spec (length (c_lock c)) i); [lia|]. rewrite HI. simpl.
    assert (OT : forall j q, j <> i -> nth_error (c_pds c) j = Some q -> chan_id q = chan_id p -> chan_id p <> 0 -> waiting q = true -> nth j (c_lock c) 0 = chan_id p).
    { intros j q J NQ CQ C0 W. rewrite (cv_held _ V j q NQ), W, (cv_shared _ V j i q p J NQ NP CQ). exact CQ. }
    destruct (waiting p) eqn:WP.
    - rewrite Z.eqb_refl. right. exists (c_lock c). split; [reflexivity|]. split; [reflexivity|]. split; [congruence|]. split; [|auto]. intros _.
      split; [exact HI|]. intros j q J NQ CQ C0. destruct (waiting q) eqn:WQ; auto. destruct (cv_excl _ V j i q p J NQ NP CQ); congruence.
    - destruct (0 =? chan_id p) eqn:Z0.
      + apply Z.eqb_eq in Z0. right. exists (c_lock c). split; [reflexivity|]. split; [reflexivity|]. split; [congruence|]. split; [|auto]. intros _. split; [rewrite HI; exact Z0|congruence].
      + apply Z.eqb_neq in Z0. change (negb (0 =? 0)) with false. cbv iota. destruct (existsb (fun x => x =? chan_id p) (c_lock c)) eqn:EX.
        * left. split; [reflexivity|]. destruct (in_lock _ _ EX) as (j & J1 & J2).
          assert (JN : j <> i) by (intros ->; rewrite HI in J2; simpl in J2; congruence).
          destruct (cv_len _ V) as [E0|E0]; [rewrite E0 in J1; simpl in J1; lia|]. rewrite E0 in J1.
          destruct (nth_error (c_pds c) j) as [q|] eqn:NQ; [|apply nth_error_None in NQ; lia].
          rewrite (cv_held _ V j q NQ) in J2. destruct (chn_shared (fl q) && waiting q) eqn:WQ; [|congruence]. apply andb_true_iff in WQ as [_ WQ].
          exists j. split; [exact JN|]. split; [congruence|]. exists q. split; [exact NQ|]. split; [exact J2|apply waiting_iff; exact WQ].
        * right. exists (upd i (chan_id p) (c_lock c)). split; [reflexivity|]. split; [apply upd_length|]. split; [congruence|]. split.
          -- intros _. split; [apply nth_upd_same; exact LL|]. intros j q J NQ CQ C0. destruct (waiting q) eqn:WQ; auto. exfalso.
             pose proof (OT j q J NQ CQ C0 WQ) as X. refine (not_in_lock _ _ j EX _ X). destruct (cv_len _ V) as [E0|E0]; [rewrite E0 in LL; simpl in LL; lia|]. rewrite E0. exact (ne_lt _ _ _ NQ).
          -- intros j J. apply nth_upd_other. congruence. }
  destruct AC as [(AC & j & J & C0 & W) | (lock & AC & L0 & LU & LS & LO)].
  - rewrite AC in H. cbn [bind] in H. injection H as <- <- <-. split; [exact (TN_passed e c i c p j NP J C0 W eq_refl)|exact V].
  - rewrite AC in H. cbn [bind] in H. destruct (state_update e p) as [[[q rc] ou]| |] eqn:U; cbn [bind] in H; try discriminate.
    pose proof (cp_reach_inv _ RP) as VP.
    pose proof (upd_place e p q rc ou VP T U) as PL. unfold place in PL. injection PL as PI PC PS. rewrite PS in H.
    assert (RQ : cp_reach q). { apply (reach_step p (Update e) q ou RP T). simpl. rewrite U. reflexivity. }
    assert (RC : (waiting q = true /\ rc = CInprog) \/ (waiting q = false /\ rc = CYield)).
    { destruct (upd_rc e p q rc ou VP T U) as [(-> & X & _) | (-> & X)]; [left|right]; (split; [|reflexivity]).
      - apply waiting_iff; exact X.
      - destruct (waiting q) eqn:W; auto. apply waiting_iff in W. congruence. }
    (* the new lock *)
    set (lk := if chn_shared (fl p) then if waiting q then lock else upd i 0 lock else lock).
    assert (HH : d = mkCtx (upd i q (c_pds c)) (c_cur c) (c_nchan c) lk /\ b = negb (waiting q && chn_shared (fl p) && (c_nchan c =? 1)) /\ o = ou).
    { unfold lk. destruct (chn_shared (fl p)) eqn:SH.
      - destruct RC as [(-> & ->) | (-> & ->)]; injection H as <- <- <-; (split; [|split; [|reflexivity]]); try reflexivity.
        unfold release. rewrite PI, IX, Nat2Z.id, PC. destruct (LS eq_refl) as (X & _). rewrite X, Z.eqb_refl. reflexivity.
      - injection H as <- <- <-. rewrite andb_false_r. auto. }
    destruct HH as (-> & -> & ->). split; [apply (TN_done e c i _ p q rc ou NP U); reflexivity|].
    assert (NU : forall j r, nth_error (upd i q (c_pds c)) j = Some r -> (j = i /\ r = q) \/ (j <> i /\ nth_error (c_pds c) j = Some r)).
    { intros j r X. destruct (Nat.eq_dec i j) as [<- | N]; [left; rewrite (ne_upd_same i q _ LI) in X; split; congruence|right; rewrite (ne_upd_other i j q _ N) in X; auto]. }
    assert (PL : forall j r, nth_error (upd i q (c_pds c)) j = Some r -> exists r0, nth_error (c_pds c) j = Some r0 /\ idx r = idx r0 /\ chan_id r = chan_id r0 /\ chn_shared (fl r) = chn_shared (fl r0)).
    { intros j r X. destruct (NU j r X) as [(-> & ->) | (N & Y)]; [exists p|exists r]; repeat split; auto. }
    constructor; cbn [c_pds c_cur c_nchan c_lock].
    + apply upd_Forall; [apply V|exact RQ].
    + intros j r X. destruct (PL j r X) as (r0 & Y & -> & _). exact (cv_idx _ V j r0 Y).
    + intros j1 j2 r1 r2 N X1 X2 CC. destruct (PL j1 r1 X1) as (a & Y1 & _ & Z1 & ->). destruct (PL j2 r2 X2) as (a2 & Y2 & _ & Z2 & _).
      apply (cv_shared _ V j1 j2 a a2 N Y1 Y2). congruence.
    + rewrite upd_length. unfold lk. destruct (cv_len _ V) as [E0|E0].
      * left. rewrite E0 in L0. destruct lock; [|discriminate]. destruct (chn_shared (fl p)), (waiting q), i; reflexivity.
      * right. destruct (chn_shared (fl p)), (waiting q); rewrite ?upd_length; congruence.
    + intros j r X SR. destruct (PL j r X) as (a & Y1 & _ & Z1 & SA). rewrite SA in SR. pose proof (cv_lock _ V j a Y1 SR) as L.
      unfold lk. destruct (chn_shared (fl p)), (waiting q); rewrite ?upd_length; lia.
    + intros j r X. destruct (NU j r X) as [(-> & ->) | (N & Y)].
      * rewrite PS, PC. unfold lk. destruct (chn_shared (fl p)) eqn:SH; simpl.
        -- destruct (waiting q); [exact (proj1 (LS eq_refl))|]. apply nth_upd_same. rewrite L0. exact (cv_lock _ V i p NP SH).
        -- rewrite (LU eq_refl). exact HI.
      * rewrite <- (cv_held _ V j r Y), <- (LO j N). unfold lk. destruct (chn_shared (fl p)), (waiting q); auto. apply nth_upd_other. congruence.
    + intros j1 j2 r1 r2 N X1 X2 CC C0 W1 W2.
      assert (MX : forall j r, j <> i -> nth_error (c_pds c) j = Some r -> chan_id r = chan_id q -> chan_id r <> 0 -> waiting q = true -> waiting r = true -> False).
      { intros j r J Y CR CN WQ WR. rewrite PC in CR. pose proof (cv_shared _ V i j p r (not_eq_sym J) NP Y (eq_sym CR)) as SH.
        destruct (LS SH) as (_ & M). rewrite (M j r J Y CR) in WR; congruence. }
      destruct (NU j1 r1 X1) as [(-> & ->) | (N1 & Y1)], (NU j2 r2 X2) as [(-> & ->) | (N2 & Y2)].
      * congruence.
      * apply (MX j2 r2); auto; congruence.
      * apply (MX j1 r1); auto; congruence.
      * exact (cv_excl _ V j1 j2 r1 r2 N Y1 Y2 CC C0 W1 W2).
    + destruct (cv_cur _ V) as [E|E]; [left; rewrite E; destruct i; reflexivity|right; rewrite upd_length; exact E].
Qed.

(** * Set up *)
Lemma nodup_short (l : list Z) : (length (nodup Z.eq_dec l) <= length l)%nat.
Proof. induction l as [|x t IH]; simpl; [lia|]. destruct (in_dec Z.eq_dec x t); simpl; lia. Qed.
Lemma nodup_full (l : list Z) : length (nodup Z.eq_dec l) = length l -> NoDup l.
Proof.
  induction l as [|x t IH]; simpl; intros H; [constructor|]. pose proof (nodup_short t). destruct (in_dec Z.eq_dec x t); simpl in H; [lia|].
  constructor; [assumption|]. apply IH. lia.
Qed.
Lemma count_two (l : list Z) : forall i j a, i <> j -> nth_error l i = Some a -> nth_error l j = Some a -> (1 < count_occ Z.eq_dec l a)%nat.
Proof.
  induction l as [|x t IH]; intros [|i] [|j] a N A B; simpl in *; try discriminate; try congruence.
  - injection A as ->. destruct (Z.eq_dec a a); [|congruence]. apply nth_error_In in B. apply (count_occ_In Z.eq_dec) in B. lia.
  - injection B as ->. destruct (Z.eq_dec a a); [|congruence]. apply nth_error_In in A. apply (count_occ_In Z.eq_dec) in A. lia.
  - assert (i <> j) by congruence. specialize (IH i j a H A B). destruct (Z.eq_dec x a); lia.
Qed.

Lemma new_pd_fresh k blocks info p : new_pd k blocks info = Some p -> idx p = k /\ chan_id p = i_chan info /\ phy_state p = PIdle.
Proof.
  unfold new_pd. destruct (i_scbk info); [intros H; injection H as <-; auto|].
  match goal with |- (if ?b then _ else _) = _ -> _ => destruct b end; [discriminate|]. intros H; injection H as <-; auto.
Qed.
Lemma new_pds_nth blocks : forall l k q, new_pds k blocks l = Some q -> length q = length l /\
  forall i p, nth_error q i = Some p -> exists info, nth_error l i = Some info /\ new_pd (k + Z.of_nat i) blocks info = Some p.
Proof.
  induction l as [|x t IH]; simpl; intros k q H.
  - injection H as <-. split; auto. intros [|i] p X; discriminate.
  - destruct (new_pd k blocks x) as [p|] eqn:E1; [|discriminate]. destruct (new_pds (k + 1) blocks t) as [r|] eqn:E2; [|discriminate].
    injection H as <-. destruct (IH _ _ E2) as (L & N). split; [simpl; lia|]. intros [|i] p1 X; simpl in X.
    + injection X as <-. exists x. split; auto. rewrite Z.add_0_r. exact E1.
    + destruct (N i p1 X) as (info & A & B). exists info. split; auto. rewrite <- B. f_equal. lia.
Qed.
Lemma mark_nth l i p : nth_error (mark_shared l) i = Some p -> exists p0, nth_error l i = Some p0 /\
  p = (if Nat.ltb 1 (count_occ Z.eq_dec (map chan_id l) (chan_id p0)) then set_chn_shared true p0 else p0).
Proof.
  unfold mark_shared. intros H. rewrite nth_error_map in H. destruct (nth_error l i) as [p0|]; [|discriminate]. simpl in H. injection H as <-. eauto.
Qed.
Lemma share_reach p : cp_reach p -> cp_reach (set_chn_shared true p).
Proof. intros R. exact (reach_step p Share _ [] R Logic.I eq_refl). Qed.
Lemma mark_reach l : Forall cp_reach l -> Forall cp_reach (mark_shared l).
Proof.
  intros F. apply Forall_forall. intros p IN. apply In_nth_error in IN. destruct IN as (i & IN). destruct (mark_nth _ _ _ IN) as (p0 & N & ->).
  apply nth_error_In in N. pose proof (proj1 (Forall_forall _ _) F p0 N). destruct (Nat.ltb 1 _); auto. apply share_reach; auto.
Qed.
Lemma new_reach blocks l q : Forall cp_info_typed l -> new_pds 0 blocks l = Some q -> Forall cp_reach q.
Proof.
  intros T H. apply Forall_forall. intros p IN. apply In_nth_error in IN. destruct IN as (i & IN).
  destruct (proj2 (new_pds_nth _ _ _ _ H) i p IN) as (info & A & B). exists (0 + Z.of_nat i), blocks, info, []. apply cruns_start; auto.
  apply nth_error_In in A. exact (proj1 (Forall_forall _ _) T info A).
Qed.
Lemma new_unshared k blocks info p : new_pd k blocks info = Some p -> chn_shared (fl p) = chn_shared (public_flags (i_flags info)).
Proof.
  unfold new_pd. destruct (i_scbk info); [intros H; injection H as <-; auto|].
  match goal with |- (if ?b then _ else _) = _ -> _ => destruct b end; [discriminate|]. intros H; injection H as <-; auto.
Qed.

Lemma setup_inv blocks l c : Forall cp_info_typed l -> cp_setup blocks l = Ok (Some c) -> cinv c.
Proof.
  intros T H. unfold cp_setup in H. destruct l as [|x t].
  { injection H as <-. constructor; simpl; auto; intros [|i] *; discriminate. }
  remember (x :: t) as l eqn:EL. unfold cp_add_pd in H. rewrite EL in H at 1. destruct (new_pds 0 blocks l) as [q|] eqn:NQ; [|discriminate].
  unfold detect_topology in H. cbn [c_pds app] in H. destruct (zlen q >? 126); [discriminate|]. cbn [bind] in H. injection H as <-.
  destruct (new_pds_nth _ _ _ _ NQ) as (LQ & NN).
  assert (FR : forall i p, nth_error (mark_shared q) i = Some p -> exists p0, nth_error q i = Some p0 /\ idx p = Z.of_nat i /\ chan_id p = chan_id p0 /\ phy_state p = PIdle /\
    (chn_shared (fl p) = Nat.ltb 1 (count_occ Z.eq_dec (map chan_id q) (chan_id p0)))).
  { intros i p X. destruct (mark_nth _ _ _ X) as (p0 & N0 & ->). destruct (NN i p0 N0) as (info & A & B). destruct (new_pd_fresh _ _ _ _ B) as (I1 & I2 & I3).
    pose proof (new_unshared _ _ _ _ B) as US. exists p0. split; auto. destruct (Nat.ltb 1 _); repeat split; simpl; auto. }
  constructor; cbn [c_pds c_cur c_nchan c_lock].
  - apply mark_reach. exact (new_reach _ _ _ T NQ).
  - intros i p X. destruct (FR i p X) as (p0 & _ & I1 & _). exact I1.
  - intros i j p r N X Y C. destruct (FR i p X) as (p0 & X0 & _ & X2 & _ & XS). destruct (FR j r Y) as (r0 & Y0 & _ & Y2 & _).
    rewrite XS. apply Nat.ltb_lt. apply (count_two _ i j); auto; rewrite nth_error_map; [rewrite X0|rewrite Y0]; simpl; congruence.
  - unfold mark_shared. rewrite map_length. destruct (_ =? _); [left; reflexivity|right; apply repeat_length].
  - intros i p X S. destruct (FR i p X) as (p0 & X0 & _ & X2 & _ & XS). rewrite XS in S. apply Nat.ltb_lt in S.
    destruct (zlen (nodup Z.eq_dec (map chan_id q)) =? zlen q) eqn:E.
    + apply Z.eqb_eq in E. unfold zlen in E. apply Nat2Z.inj in E. assert (E2 : length (nodup Z.eq_dec (map chan_id q)) = length (map chan_id q)) by (rewrite map_length; exact E).
      apply nodup_full in E2. rewrite (NoDup_count_occ Z.eq_dec) in E2. specialize (E2 (chan_id p0)). lia.
    + rewrite repeat_length. exact (ne_lt _ _ _ X0).
  - intros i p X. destruct (FR i p X) as (p0 & _ & _ & _ & I3 & _). unfold waiting. rewrite I3, andb_false_r. destruct (_ =? _); [destruct i; reflexivity|].
    destruct (nth_in_or_default i (repeat 0 (length q)) 0) as [IN | ->]; auto. exact (repeat_spec _ _ _ IN).
  - intros i j p r N X Y C C0 W. destruct (FR i p X) as (p0 & _ & _ & _ & I3 & _). unfold waiting in W. rewrite I3 in W. discriminate.
  - right. unfold mark_shared. rewrite map_length, LQ, EL. simpl. lia.
Qed.

(** * The loop *)
Lemma next_turn c i p : nth_error (c_pds c) i = Some p -> idx p = Z.of_nat i -> next_cur c i = Nat.modulo (S i) (length (c_pds c)).
Proof.
  intros N IX. pose proof (ne_lt _ _ _ N) as L. unfold next_cur. rewrite N, IX. unfold zlen.
  destruct (Z.of_nat i + 1 >=? Z.of_nat (length (c_pds c))) eqn:G.
  - replace (S i) with (length (c_pds c)) by lia. rewrite Nat.mod_same; lia.
  - rewrite Nat.mod_small by lia. lia.
Qed.
Lemma turns_S n a m : (0 < n)%nat -> (a < n)%nat -> turns n a (S m) = a :: turns n (Nat.modulo (S a) n) m.
Proof.
  intros N A. unfold turns. cbn [seq map]. f_equal.
  - rewrite Nat.add_0_r. apply Nat.mod_small; auto.
  - rewrite <- seq_shift, map_map. apply map_ext. intros k. rewrite Nat.add_mod_idemp_l by lia. f_equal. lia.
Qed.

Lemma mod_apart a m n : (a < n)%nat -> (0 < m < n)%nat -> Nat.modulo (a + m) n <> a.
Proof.
  intros A M X. destruct (Nat.lt_ge_cases (a + m) n) as [Y|Y]; [rewrite Nat.mod_small in X by lia; lia|].
  replace (a + m)%nat with ((a + m - n) + 1 * n)%nat in X by lia. rewrite Nat.mod_add, Nat.mod_small in X by lia. lia.
Qed.

Definition stopped (es : nat -> env) (c d : ctx) (k : nat) (l : list nat) : Prop :=
  let n := length (c_pds c) in
  exists m p0 p, (m < k)%nat /\ l = turns n (c_cur c) (S m) /\ c_cur d = Nat.modulo (c_cur c + m) n /\ c_nchan c = 1 /\
     nth_error (c_pds c) (c_cur d) = Some p0 /\ nth_error (c_pds d) (c_cur d) = Some p /\ chn_shared (fl p) = true /\ phy_state p = PReplyWait /\
     ((phy_state p0 = PReplyWait /\ phy_tstamp p = phy_tstamp p0 /\ e_now (es (k - m)%nat) <= phy_tstamp p + 200) \/
      (phy_state p0 <> PReplyWait /\ phy_tstamp p = e_now (es (k - m)%nat))).
(* the refresh has been through the PDs in their order, or stopped at one that waits for a reply on
   the only channel *)
Definition went (es : nat -> env) (c d : ctx) (k : nat) (l : list nat) : Prop :=
  let n := length (c_pds c) in
  (l = turns n (c_cur c) k /\ c_cur d = Nat.modulo (c_cur c + k) n) \/ stopped es c d k l.

Lemma loop_went es : (forall k, env_typed (es k)) -> forall k c d l, cinv c -> c_pds c <> [] -> (k <= length (c_pds c))%nat -> refresh_loop es k c = Ok (d, l) ->
  cinv d /\ length (c_pds d) = length (c_pds c) /\ c_nchan d = c_nchan c /\ went es c d k (map fst l).
Proof.
  intros T. induction k as [|k IH]; intros c d l V NE KN H.
  - simpl in H. injection H as <- <-. split; auto. split; auto. split; auto. left. split; auto. rewrite Nat.add_0_r. symmetry. apply Nat.mod_small.
    destruct (cv_cur _ V); [contradiction|auto].
  - cbn [refresh_loop] in H. destruct (refresh_pd (es (S k)) c (c_cur c)) as [[[c1 b] o]| |] eqn:R; cbn [bind] in H; try discriminate.
    destruct (refresh_turn _ _ _ _ _ _ V (T (S k)) R) as (TN & V1).
    assert (PN : exists p, nth_error (c_pds c) (c_cur c) = Some p) by (destruct TN; eauto). destruct PN as (p & NP). pose proof (ne_lt _ _ _ NP) as LC.
    assert (LN : length (c_pds c1) = length (c_pds c) /\ c_cur c1 = c_cur c /\ c_nchan c1 = c_nchan c).
    { clear - TN. destruct TN as [? ? ? ? ? ? E | ? ? ? ? ? ? E1 E2 E3]; [rewrite E; auto|]. rewrite E1, upd_length. auto. }
    destruct LN as (LN & CC & NC). destruct b.
    + assert (N1 : exists p1, nth_error (c_pds c1) (c_cur c) = Some p1).
      { destruct (nth_error (c_pds c1) (c_cur c)) eqn:X; eauto. apply nth_error_None in X. lia. }
      destruct N1 as (p1 & N1). pose proof (next_turn c1 _ _ N1 (cv_idx _ V1 _ _ N1)) as NX. rewrite LN in NX.
      set (c2 := mkCtx (c_pds c1) (next_cur c1 (c_cur c)) (c_nchan c1) (c_lock c1)) in *.
      assert (V2 : cinv c2). { destruct V1. constructor; auto. right. cbn [c_cur c2 c_pds]. rewrite NX, LN. apply Nat.mod_upper_bound. lia. }
      destruct (refresh_loop es k c2) as [[d2 l2]| |] eqn:RL; cbn [bind] in H; try discriminate. cbn [fst snd] in H. injection H as <- <-.
      assert (NE2 : c_pds c2 <> []). { cbn [c2 c_pds]. intros X. rewrite X in LN. simpl in LN. lia. }
      assert (KN2 : (k <= length (c_pds c2))%nat) by (cbn [c2 c_pds]; lia).
      destruct (IH c2 d2 l2 V2 NE2 KN2 RL) as (VD & LD & ND & W). split; [exact VD|]. cbn [c2 c_pds c_nchan] in LD, ND. split; [congruence|]. split; [congruence|].
      unfold went in *. cbn [c2 c_pds c_cur c_nchan] in W. rewrite LN, NX in W. cbn [map fst].
      destruct W as [(W1 & W2) | (m & q0 & q & W0 & W1 & W2 & W3 & W4 & W5)].
      * left. split; [rewrite W1, turns_S by lia; reflexivity|]. rewrite W2, Nat.add_mod_idemp_l by lia. f_equal. lia.
      * right. cbn [c2 c_pds c_cur c_nchan] in W1, W2, W3, W4. rewrite LN, NX in W1, W2. rewrite NC in W3.
        assert (W2' : c_cur d2 = Nat.modulo (c_cur c + S m) (length (c_pds c))) by (rewrite W2, Nat.add_mod_idemp_l by lia; f_equal; lia).
        assert (ND2 : c_cur d2 <> c_cur c).
        { rewrite W2'. apply mod_apart; lia. }
        exists (S m), q0, q. split; [lia|]. split; [rewrite W1, (turns_S _ _ (S m)) by lia; reflexivity|]. split; [exact W2'|]. split; [exact W3|].
        split; [|exact W5]. clear - W4 TN ND2. destruct TN as [? ? ? ? ? ? E | ? ? ? ? ? ? E1 E2 E3]; [rewrite <- E; exact W4|]. rewrite E1, ne_upd_other in W4 by congruence. exact W4.
    + injection H as <- <-. split; [exact V1|]. split; [exact LN|]. split; [exact NC|]. right. remember false as b eqn:EB. destruct TN as [p0 j E | p0 q rc o0 NP0 U E1 E2 E3]; [discriminate|].
      assert (G : waiting q && chn_shared (fl p0) && (c_nchan c =? 1) = true) by (destruct (waiting q && chn_shared (fl p0) && (c_nchan c =? 1)); [reflexivity|discriminate]).
      apply andb_true_iff in G as [G G3]. apply andb_true_iff in G as [G1 G2]. apply Z.eqb_eq in G3.
      assert (RP : cp_reach p0) by (apply (proj1 (Forall_forall _ _) (cv_reach _ V)); apply nth_error_In in NP0; exact NP0).
      pose proof (upd_place _ _ _ _ _ (cp_reach_inv _ RP) (T (S k)) U) as PL. unfold place in PL. injection PL as PI PC PS.
      exists 0%nat, p0, q. rewrite E2. split; [lia|]. split; [rewrite turns_S by lia; reflexivity|]. split; [rewrite Nat.add_0_r, Nat.mod_small by lia; reflexivity|]. split; [exact G3|].
      split; [exact NP0|]. rewrite E1, (ne_upd_same _ _ _ LC). split; [reflexivity|]. split; [congruence|]. split; [apply waiting_iff; exact G1|]. rewrite Nat.sub_0_r.
      destruct (upd_rc _ _ _ _ _ (cp_reach_inv _ RP) (T (S k)) U) as [(_ & X1 & X2 & X3) | (_ & X1)]; [|apply waiting_iff in G1; contradiction].
      destruct (waiting p0) eqn:W0; [left|right].
      * apply waiting_iff in W0. destruct (X2 W0) as (Y1 & Y2). split; [exact W0|]. split; [exact Y1|]. rewrite Y1. exact Y2.
      * assert (W0' : phy_state p0 <> PReplyWait) by (intros X; apply waiting_iff in X; congruence). split; [exact W0'|exact (X3 W0')].
Qed.

Lemma refresh_went es c d l : cinv c -> (forall k, env_typed (es k)) -> cp_refresh es c = Ok (d, l) ->
  cinv d /\ length (c_pds d) = length (c_pds c) /\ c_nchan d = c_nchan c /\ (c_pds c <> [] -> went es c d (length (c_pds c)) (map fst l)).
Proof.
  intros V T H. unfold cp_refresh in H. destruct (c_pds c) as [|p t] eqn:E.
  - simpl in H. injection H as <- <-. rewrite E. split; [exact V|]. split; [reflexivity|]. split; [reflexivity|]. intros X; elim X; reflexivity.
  - rewrite <- E in *. assert (NE : c_pds c <> []) by (rewrite E; discriminate). destruct (loop_went es T _ _ _ _ V NE (le_n _) H) as (A & B & C & D). auto.
Qed.

(** * Whole runs *)
Lemma ctx_step x c d o : cinv c -> ctx_typed x -> fixed x -> ctx_do x c = Ok (d, o) -> cinv d /\ length (c_pds d) = length (c_pds c) /\ c_nchan d = c_nchan c.
Proof.
  intros V T F H. destruct x as [es | i k | b l]; [| |destruct F].
  - destruct (refresh_went es c d o V T H) as (A & B & C & _). auto.
  - simpl in H. destruct (nth_error (c_pds c) i) as [p|] eqn:NP; [|injection H as <- <-; auto].
    destruct (cp_do k p) as [[q o1]| |] eqn:D; cbn [bind fst snd] in H; try discriminate. injection H as <- <-. destruct T as (T1 & T2).
    destruct (app_place k p q o1 T1 D) as (PL & PH). unfold place in PL. injection PL as PI PC PS.
    assert (RP : cp_reach p) by (apply (proj1 (Forall_forall _ _) (cv_reach _ V)); apply nth_error_In in NP; exact NP).
    pose proof (reach_step p k q o1 RP T2 D) as RQ. pose proof (ne_lt _ _ _ NP) as LI. cbn [c_pds c_nchan]. rewrite upd_length. split; [|auto].
    assert (PL : forall j r, nth_error (upd i q (c_pds c)) j = Some r -> exists r0, nth_error (c_pds c) j = Some r0 /\ idx r = idx r0 /\ chan_id r = chan_id r0 /\ chn_shared (fl r) = chn_shared (fl r0) /\ waiting r = waiting r0).
    { intros j r X. destruct (Nat.eq_dec i j) as [<- | N].
      - rewrite (ne_upd_same i q _ LI) in X. injection X as <-. exists p. repeat split; auto. unfold waiting. rewrite PH. reflexivity.
      - rewrite (ne_upd_other i j q _ N) in X. exists r. auto. }
    constructor; cbn [c_pds c_cur c_nchan c_lock].
    + apply upd_Forall; [apply V|exact RQ].
    + intros j r X. destruct (PL j r X) as (r0 & Y & -> & _). exact (cv_idx _ V j r0 Y).
    + intros j1 j2 r1 r2 N X1 X2 CC. destruct (PL j1 r1 X1) as (a & Y1 & _ & Z1 & -> & _). destruct (PL j2 r2 X2) as (a2 & Y2 & _ & Z2 & _).
      apply (cv_shared _ V j1 j2 a a2 N Y1 Y2). congruence.
    + rewrite upd_length. apply V.
    + intros j r X SR. destruct (PL j r X) as (a & Y1 & _ & Z1 & SA & _). rewrite SA in SR. exact (cv_lock _ V j a Y1 SR).
    + intros j r X. destruct (PL j r X) as (a & Y1 & _ & Z1 & -> & ->). rewrite Z1. exact (cv_held _ V j a Y1).
    + intros j1 j2 r1 r2 N X1 X2 CC C0 W1 W2. destruct (PL j1 r1 X1) as (a & Y1 & _ & Z1 & _ & S1). destruct (PL j2 r2 X2) as (a2 & Y2 & _ & Z2 & _ & S2).
      apply (cv_excl _ V j1 j2 a a2 N Y1 Y2); congruence.
    + rewrite upd_length. destruct (cv_cur _ V) as [E|E]; [left; rewrite E; destruct i; reflexivity|right; exact E].
Qed.
Theorem ctx_inv blocks l h c : ctx_runs blocks l h c -> Forall fixed h -> cinv c.
Proof.
  induction 1 as [c T S | h c x d o R IH T D]; intros F.
  - exact (setup_inv _ _ _ T S).
  - inversion F; subst. exact (proj1 (ctx_step x c d o (IH H2) T H1 D)).
Qed.

(** * Moments inside a refresh *)
Lemma sweep_inv es k c m : (forall j, env_typed (es j)) -> cinv c -> sweep es k c m -> cinv m.
Proof.
  intros T V S. induction S as [k c | k c c1 o m R S IH | k c c1 b o R]; auto.
  - apply IH. destruct (refresh_turn _ _ _ _ _ _ V (T _) R) as (TN & V1). destruct V1. constructor; auto. cbn [c_pds c_cur].
    destruct cv_cur0 as [X|X]; [left; exact X|right].
    assert (PN : exists p, nth_error (c_pds c) (c_cur c) = Some p) by (destruct TN; eauto). destruct PN as (p & NP). apply ne_lt in NP.
    assert (L : length (c_pds c1) = length (c_pds c)) by (clear - TN; destruct TN as [? ? ? ? ? ? E | ? ? ? ? ? ? E _ _]; rewrite E, ?upd_length; reflexivity).
    destruct (nth_error (c_pds c1) (c_cur c)) as [p1|] eqn:N1; [|apply nth_error_None in N1; lia].
    rewrite (next_turn c1 _ _ N1 (cv_idx0 _ _ N1)). apply Nat.mod_upper_bound. lia.
  - exact (proj2 (refresh_turn _ _ _ _ _ _ V (T _) R)).
Qed.

Lemma inv_alone c i j ch : cinv c -> ch <> 0 -> waits c i ch -> waits c j ch -> i = j.
Proof.
  intros V C0 (p & N1 & C1 & W1) (q & N2 & C2 & W2). destruct (Nat.eq_dec i j) as [|N]; auto. exfalso.
  apply (cv_excl _ V i j p q N N1 N2); try congruence; apply waiting_iff; assumption.
Qed.

(** * Channels *)
Lemma setup_chan blocks l c : cp_setup blocks l = Ok (Some c) -> l <> [] -> c_nchan c = zlen (nodup Z.eq_dec (map i_chan l)) /\ length (c_pds c) = length l.
Proof.
  intros H NE. unfold cp_setup in H. destruct l as [|x t]; [congruence|].
  remember (x :: t) as l eqn:EL. unfold cp_add_pd in H. rewrite EL in H at 1. destruct (new_pds 0 blocks l) as [q|] eqn:NQ; [|discriminate].
  unfold detect_topology in H. cbn [c_pds app] in H. destruct (zlen q >? 126); [discriminate|]. cbn [bind] in H. injection H as <-.
  destruct (new_pds_nth _ _ _ _ NQ) as (LQ & NN). cbn [c_nchan c_pds]. unfold mark_shared. rewrite map_length. split; [|exact LQ].
  do 2 f_equal. apply (nth_ext _ _ 0 0); rewrite !map_length; auto. intros i L.
  destruct (nth_error q i) as [p|] eqn:N; [|apply nth_error_None in N; lia]. destruct (NN i p N) as (info & A & B). destruct (new_pd_fresh _ _ _ _ B) as (_ & I2 & _).
  rewrite (nth_indep _ 0 (chan_id pd_zero)) by (rewrite map_length; lia). rewrite map_nth, (nth_error_nth _ _ _ N).
  rewrite (nth_indep _ 0 (i_chan info)) by (rewrite map_length; lia). rewrite map_nth, (nth_error_nth _ _ _ A). exact I2.
Qed.
Lemma nodup_one (l : list Z) : zlen (nodup Z.eq_dec l) = 1 -> forall a b, In a l -> In b l -> a = b.
Proof.
  intros H a b A B. apply (nodup_In Z.eq_dec) in A. apply (nodup_In Z.eq_dec) in B. destruct (nodup Z.eq_dec l) as [|x [|y t]]; unfold zlen in H; simpl in H; try lia.
  destruct A as [<- | []], B as [<- | []]. reflexivity.
Qed.
Lemma run_fixed blocks l h c : ctx_runs blocks l h c -> Forall fixed h -> l <> [] -> cinv c /\ c_nchan c = zlen (nodup Z.eq_dec (map i_chan l)) /\ length (c_pds c) = length l.
Proof.
  induction 1 as [c T S | h c x d o R IH T D]; intros F NE.
  - split; [exact (setup_inv _ _ _ T S)|exact (setup_chan _ _ _ S NE)].
  - inversion F; subst. destruct (IH H2 NE) as (V & A & B). destruct (ctx_step x c d o V T H1 D) as (V1 & B1 & A1). split; [exact V1|]. split; congruence.
Qed.

(** * A stall is short *)
Lemma app_time c p q o : app_call c -> cp_do c p = Ok (q, o) -> phy_state q = phy_state p /\ phy_tstamp q = phy_tstamp p.
Proof.
  intros A D. destruct (is_update c) eqn:UC; [destruct c; try discriminate; destruct A|].
  destruct (other_eq c p q o UC D) as (E & _). destruct (ucore_fields _ _ E) as (u1 & u2 & u3 & u4 & u5 & u6 & u7 & _). auto.
Qed.
Lemma stall_short i xs : forall c d p, cinv c -> nth_error (c_pds c) i = Some p -> phy_state p = PReplyWait -> c_cur c = i -> stall i c xs d ->
  Forall (fun es => e_now (es (length (c_pds c))) <= phy_tstamp p + 200) xs.
Proof.
  intros c d p V NP W C S. revert p V NP W C. induction S as [c | c k c1 o xs d T D S IH | c es c1 o xs d T D C1 S IH]; intros p V NP W C.
  - constructor.
  - destruct T as (T & TN & TF). destruct k as [es | j k | b l]; [elim (TN es eq_refl)| |destruct TF]. destruct (ctx_step (CxOn j k) c c1 o V T Logic.I D) as (V1 & L1 & _).
    simpl in D. destruct T as (H & H0).
    destruct (nth_error (c_pds c) j) as [r|] eqn:NR; [|injection D as <- <-; exact (IH p V NP W C)].
    destruct (cp_do k r) as [[r1 o1]| |] eqn:DK; cbn [bind fst snd] in D; try discriminate. injection D as <- <-. cbn [c_pds] in *.
    destruct (Nat.eq_dec j i) as [-> | N].
    + rewrite NP in NR. injection NR as <-. destruct (app_time _ _ _ _ H DK) as (A1 & A2). rewrite <- L1, <- A2. apply IH; auto; [|congruence].
      apply ne_upd_same. exact (ne_lt _ _ _ NP).
    + rewrite <- L1. apply IH; auto. rewrite ne_upd_other by congruence. exact NP.
  - simpl in D. destruct (refresh_went es c c1 o V T D) as (V1 & L1 & _ & G).
    assert (NE : c_pds c <> []) by (intros X; rewrite X in NP; destruct i; discriminate). destruct C1 as (C1 & C2).
    assert (LC : (c_cur c < length (c_pds c))%nat) by (destruct (cv_cur _ V); [contradiction|auto]).
    assert (X : stopped es c c1 (length (c_pds c)) (map fst o)).
    { destruct (G NE) as [(X1 & X2) | X]; [|exact X]. exfalso. assert (LL : length (map fst o) = length (c_pds c)) by (rewrite X1; unfold turns; rewrite map_length, seq_length; reflexivity).
      rewrite map_length in LL. apply C2. lia. }
    destruct X as (m & p0 & p1 & M1 & M2 & M3 & M4 & M5 & M6 & M7 & M8 & M9).
    assert (M0 : m = 0%nat). { destruct m as [|m]; auto. exfalso. rewrite C in M3. rewrite C1 in M3. symmetry in M3. revert M3. rewrite C in LC. apply mod_apart; lia. }
    subst m. rewrite C1, NP in M5. injection M5 as <-. rewrite Nat.sub_0_r in M9. destruct M9 as [(_ & M9 & MA) | (M9 & _)]; [|contradiction]. rewrite C1 in M6.
    constructor; [rewrite <- M9; exact MA|]. rewrite <- L1, <- M9. exact (IH p1 V1 M6 M8 C1).
Qed.

(** * Every entry of a panel lives the life of one entry *)
Lemma reach_refresh e c i d b o : env_typed e -> Forall cp_reach (c_pds c) -> refresh_pd e c i = Ok (d, b, o) -> Forall cp_reach (c_pds d).
Proof.
  intros T F H. unfold refresh_pd in H. destruct (nth_error (c_pds c) i) as [p|] eqn:NP; [|discriminate].
  assert (RP : cp_reach p) by (apply (proj1 (Forall_forall _ _) F); apply nth_error_In in NP; exact NP).
  destruct (if chn_shared (fl p) then _ else _) as [[lock|]| |]; cbn [bind] in H; try discriminate; [|injection H as <- <- <-; exact F].
  destruct (state_update e p) as [[[q rc] ou]| |] eqn:U; cbn [bind] in H; try discriminate.
  assert (RQ : cp_reach q). { apply (reach_step p (Update e) q ou RP T). simpl. rewrite U. reflexivity. }
  assert (D : c_pds d = upd i q (c_pds c)) by (destruct (chn_shared (fl q)); [destruct rc|]; injection H as <- <- <-; reflexivity).
  rewrite D. apply upd_Forall; auto.
Qed.
Lemma reach_loop es : (forall k, env_typed (es k)) -> forall k c d l, Forall cp_reach (c_pds c) -> refresh_loop es k c = Ok (d, l) -> Forall cp_reach (c_pds d).
Proof.
  intros T. induction k as [|k IH]; intros c d l F H; cbn [refresh_loop] in H; [injection H as <- <-; exact F|].
  destruct (refresh_pd (es (S k)) c (c_cur c)) as [[[c1 b] o]| |] eqn:R; cbn [bind] in H; try discriminate.
  pose proof (reach_refresh _ _ _ _ _ _ (T (S k)) F R) as F1. destruct b; [|injection H as <- <-; exact F1].
  destruct (refresh_loop es k _) as [[d2 l2]| |] eqn:RL; cbn [bind] in H; try discriminate. injection H as <- <-. refine (IH _ _ _ _ RL). exact F1.
Qed.
Lemma reach_add blocks l c d b : Forall cp_info_typed l -> Forall cp_reach (c_pds c) -> cp_add_pd blocks l c = Ok (d, b) -> Forall cp_reach (c_pds d).
Proof.
  intros T F H. unfold cp_add_pd in H. destruct l as [|x t]; [discriminate|]. destruct (new_pds 0 blocks (x :: t)) as [q|] eqn:NQ; [|injection H as <- <-; exact F].
  unfold detect_topology in H. destruct (zlen (c_pds c ++ q) >? 126); [discriminate|]. cbn [bind] in H. injection H as <- <-. apply mark_reach. apply Forall_app. split; auto. exact (new_reach _ _ _ T NQ).
Qed.
Theorem ctx_entries blocks l h c : ctx_runs blocks l h c -> Forall cp_reach (c_pds c).
Proof.
  induction 1 as [c T S | h c x d o R IH T D].
  - unfold cp_setup in S. destruct l as [|x t]; [injection S as <-; constructor|]. destruct (cp_add_pd blocks (x :: t) _) as [[c1 b]| |] eqn:A; cbn [bind] in S; try discriminate.
    destruct b; [injection S as <-|discriminate]. refine (reach_add _ _ _ _ _ T _ A). constructor.
  - destruct x as [es | i k | b2 l2]; simpl in D.
    + exact (reach_loop es T _ _ _ _ IH D).
    + destruct (nth_error (c_pds c) i) as [p|] eqn:NP; [|injection D as <- <-; exact IH].
      destruct (cp_do k p) as [[q o1]| |] eqn:DK; cbn [bind fst snd] in D; try discriminate. injection D as <- <-. cbn [c_pds]. apply upd_Forall; auto.
      apply (reach_step p k q o1); auto; [|apply T]. apply (proj1 (Forall_forall _ _) IH). apply nth_error_In in NP; exact NP.
    + destruct (cp_add_pd b2 l2 c) as [[c1 b]| |] eqn:A; cbn [bind fst] in D; try discriminate. injection D as <- <-. exact (reach_add _ _ _ _ _ T IH A).
Qed.

(** * Masks *)
Lemma mask_shift l : forall pos, 0 <= pos -> mask_byte pos l = 2 ^ pos * mask_byte 0 l.
Proof.
  induction l as [|b t IH]; intros pos H; cbn [mask_byte]; [lia|]. rewrite (IH (pos + 1)), (IH (0 + 1)) by lia. rewrite Z.pow_add_r by lia.
  change (2 ^ (0 + 1)) with 2. change (2 ^ 1) with 2. change (2 ^ 0) with 1. destruct b; ring.
Qed.
Lemma mask_cons b t : mask_byte 0 (b :: t) = 2 * mask_byte 0 t + Z.b2z b.
Proof. cbn [mask_byte]. rewrite (mask_shift t (0 + 1)) by lia. change (2 ^ (0 + 1)) with 2. destruct b; simpl Z.b2z; change (2 ^ 0) with 1; ring. Qed.
Lemma mask_bit l : forall j, Z.testbit (mask_byte 0 l) (Z.of_nat j) = nth j l false.
Proof.
  induction l as [|b t IH]; intros j.
  - cbn [mask_byte]. rewrite Z.bits_0. destruct j; reflexivity.
  - rewrite mask_cons. destruct j as [|j].
    + change (Z.of_nat 0) with 0. rewrite Z.testbit_0_r. reflexivity.
    + replace (Z.of_nat (S j)) with (Z.succ (Z.of_nat j)) by lia. rewrite Z.testbit_succ_r by lia. rewrite IH. reflexivity.
Qed.
Lemma mask_range l : 0 <= mask_byte 0 l < 2 ^ zlen l.
Proof.
  induction l as [|b t IH]; [split; reflexivity || discriminate|]. rewrite mask_cons, zlen_cons. rewrite Z.pow_add_r by (pose proof (zlen_nonneg t); lia). change (2 ^ 1) with 2. destruct b; simpl Z.b2z; lia.
Qed.
Lemma mask_bytes_spec : forall fuel l, (length l <= 8 * fuel)%nat -> (0 < fuel)%nat ->
  length (mask_bytes fuel l) = Nat.max 1 (Nat.div (length l + 7) 8) /\ bytes (mask_bytes fuel l) /\
  forall i, Z.testbit (nth (Nat.div i 8) (mask_bytes fuel l) 0) (Z.of_nat (Nat.modulo i 8)) = nth i l false.
Proof.
  induction fuel as [|fuel IH]; intros l L F; [lia|]. cbn [mask_bytes].
  assert (B0 : 0 <= mask_byte 0 (firstn 8 l) < 256).
  { pose proof (mask_range (firstn 8 l)). assert (zlen (firstn 8 l) <= 8) by (unfold zlen; pose proof (firstn_le_length 8 l); rewrite firstn_length; lia).
    pose proof (Z.pow_le_mono_r 2 (zlen (firstn 8 l)) 8 ltac:(lia) H0). lia. }
  assert (BIT : forall i, (i < 8)%nat -> Z.testbit (mask_byte 0 (firstn 8 l)) (Z.of_nat i) = nth i l false).
  { intros i I. rewrite mask_bit. apply nth_firstn; auto. }
  destruct (Nat.leb_spec (length l) 8) as [S|S].
  - split; [|split].
    + cbn [length]. assert (Nat.div (length l + 7) 8 <= 1)%nat by (apply Nat.lt_succ_r, Nat.div_lt_upper_bound; lia). lia.
    + constructor; [exact B0|constructor].
    + intros i. destruct (Nat.lt_ge_cases i 8) as [I|I].
      * rewrite Nat.div_small, Nat.mod_small by auto. apply BIT; auto.
      * rewrite (nth_overflow l) by lia. assert (1 <= Nat.div i 8)%nat by (apply Nat.div_le_lower_bound; lia).
        rewrite (nth_overflow [_]) by (cbn [length]; lia). apply Z.bits_0.
  - assert (LS : length (skipn 8 l) = (length l - 8)%nat) by apply skipn_length.
    destruct (IH (skipn 8 l)) as (A & B & C); [lia|lia|]. split; [|split].
    + cbn [length]. rewrite A, LS. replace (length l + 7)%nat with ((length l - 8 + 7) + 1 * 8)%nat by lia. rewrite Nat.div_add by lia.
      assert (1 <= Nat.div (length l - 8 + 7) 8)%nat by (apply Nat.div_le_lower_bound; lia). lia.
    + constructor; [exact B0|exact B].
    + intros i. destruct (Nat.lt_ge_cases i 8) as [I|I].
      * rewrite Nat.div_small, Nat.mod_small by auto. apply BIT; auto.
      * replace i with ((i - 8) + 1 * 8)%nat by lia. rewrite Nat.div_add, Nat.mod_add, Nat.add_1_r by lia. cbn [nth]. rewrite C, nth_skipn. f_equal. lia.
Qed.

(** * After osdp_cp_add_pd *)
Lemma stuck_loop es : (forall k, env_typed (es k)) -> forall k c d l, Forall cp_reach (c_pds c) -> c_cur c = 1%nat -> length (c_pds c) = 2%nat ->
  (forall p, nth_error (c_pds c) 1 = Some p -> idx p = 0) -> refresh_loop es k c = Ok (d, l) ->
  Forall cp_reach (c_pds d) /\ c_cur d = 1%nat /\ length (c_pds d) = 2%nat /\ (forall p, nth_error (c_pds d) 1 = Some p -> idx p = 0) /\ ~ In 0%nat (map fst l).
Proof.
  intros T. induction k as [|k IH]; intros c d l F C L X H; cbn [refresh_loop] in H; [injection H as <- <-; auto 6|].
  destruct (refresh_pd (es (S k)) c (c_cur c)) as [[[c1 b] o]| |] eqn:R; cbn [bind] in H; try discriminate.
  pose proof (reach_refresh _ _ _ _ _ _ (T (S k)) F R) as F1. rewrite C in *.
  assert (G : c_cur c1 = 1%nat /\ length (c_pds c1) = 2%nat /\ forall p, nth_error (c_pds c1) 1 = Some p -> idx p = 0).
  { clear H IH. unfold refresh_pd in R. destruct (nth_error (c_pds c) 1) as [p|] eqn:NP; [|discriminate].
    destruct (if chn_shared (fl p) then _ else _) as [[lock|]| |]; cbn [bind] in R; try discriminate; [|injection R as <- <- <-; rewrite NP; auto].
    destruct (state_update (es (S k)) p) as [[[q rc] ou]| |] eqn:U; cbn [bind] in R; try discriminate.
    assert (RP : cp_reach p) by (apply (proj1 (Forall_forall _ _) F); apply nth_error_In in NP; exact NP).
    pose proof (upd_place _ _ _ _ _ (cp_reach_inv _ RP) (T (S k)) U) as PL. unfold place in PL. injection PL as PI PC PS.
    assert (D : c_pds c1 = upd 1 q (c_pds c) /\ c_cur c1 = c_cur c) by (destruct (chn_shared (fl q)); [destruct rc|]; injection R as <- <- <-; auto).
    destruct D as (D1 & D2). rewrite D1, upd_length. split; [congruence|]. split; [exact L|]. intros p1 N1. rewrite ne_upd_same in N1 by lia. injection N1 as <-. rewrite PI. apply X. reflexivity. }
  destruct G as (G1 & G2 & G3). destruct b.
  - destruct (refresh_loop es k _) as [[d2 l2]| |] eqn:RL; cbn [bind] in H; try discriminate. injection H as <- <-.
    assert (NX : next_cur c1 1 = 1%nat).
    { unfold next_cur. destruct (nth_error (c_pds c1) 1) as [p1|] eqn:N1; [|apply nth_error_None in N1; lia]. rewrite (G3 p1 eq_refl). unfold zlen. rewrite G2. reflexivity. }
    destruct (IH (mkCtx (c_pds c1) (next_cur c1 1) (c_nchan c1) (c_lock c1)) _ _ F1 NX G2 G3 RL) as (A & B & D & E & I). split; [exact A|]. split; [exact B|]. split; [exact D|]. split; [exact E|].
    cbn [map fst snd]. intros [Y|Y]; [discriminate|exact (I Y)].
  - injection H as <- <-. split; [exact F1|]. split; [exact G1|]. split; [exact G2|]. split; [exact G3|]. intros [Y|[]]; discriminate.
Qed.
Lemma stuck_forever c xs d : refreshed c xs d -> Forall cp_reach (c_pds c) -> c_cur c = 1%nat -> length (c_pds c) = 2%nat ->
  (forall p, nth_error (c_pds c) 1 = Some p -> idx p = 0) -> ~ In 0%nat xs.
Proof.
  induction 1 as [c | c es c1 o xs d T H R IH]; intros F C L X; [auto|].
  destruct (stuck_loop es T _ _ _ _ F C L X H) as (A & B & D & E & N). rewrite in_app_iff. intros [Y|Y]; [exact (N Y)|exact (IH A B D E Y)].
Qed.
