(** CP: the moves of the state machine of a PD entry. *)
From Verif Require Import Base ListLemmas Aes AesProofs Rb RbProofs
  Types Sc ScProofs Phy PhyCheck File Pd Cp SpecRx SpecFrame RxProofs PdRx PdCore PhyTx PdTx PdReply
  PdStep PdRun PdWire CpCtx SpecPd SpecCp CpTx CpRx CpStep CpInv.
From Coq Require Import ZifyBool ZifyNat.
Ltac Zify.zify_post_hook ::= Z.div_mod_to_equations.
Local Opaque aes_ecb_encrypt aes_cbc_encrypt aes_cbc_decrypt mac_of RB_SIZE.

(* fields that the end of an update never touches *)
Definition lcore (p : pd) : pd :=
  set_sc_active false (set_use_scbkd false (set_state SInit (set_phy_state PIdle (set_plen 0 (set_pblen 0 (set_seqn 0
    (set_retry 0 (set_wait_ms 0 (set_tstamp 0 (set_sc_tstamp 0 (set_rq_restart false (set_rq_event false (set_rq_offline false
      (set_eph EphNone (set_sc (sc pd_zero) p))))))))))))))).

Definition edge_ok (e : env) (p q : pd) (ok : bool) : Prop :=
  match state p, state q with
  | SInit, SCapdet => ok = true
  | SInit, SOffline => ok = false
  | SCapdet, SChlng => ok = true /\ sc_is_capable p = true
  | SCapdet, SOnline => ok = true /\ sc_is_capable p = false /\ enforce (fl p) = false
  | SCapdet, SOffline => ok = false \/ (sc_is_capable p = false /\ (enforce (fl p) = true \/ rq_offline p = true))
  | SChlng, SScrypt => ok = true
  | SChlng, SChlng => ok = false /\ enforce (fl p) = false /\ use_scbkd (fl p) = false
  | SChlng, SOnline => ok = false /\ enforce (fl p) = false /\ use_scbkd (fl p) = true
  | SChlng, SOffline => ok = false /\ (enforce (fl p) = true \/ (use_scbkd (fl p) = true /\ rq_offline p = true))
  | SScrypt, SSetScbk => ok = true /\ use_scbkd (fl p) = true
  | SScrypt, SOnline => if ok then use_scbkd (fl p) = false else enforce (fl p) = false
  | SScrypt, SOffline => if ok then use_scbkd (fl p) = false /\ rq_offline p = true else enforce (fl p) = true \/ rq_offline p = true
  | SSetScbk, SChlng => ok = true
  | SSetScbk, SOffline => ok = false
  | SOnline, SOnline => ok = true /\ rq_restart p = false /\ rq_offline p = false /\ sc_should_retry e p = false
  | SOnline, SChlng => rq_offline p = false /\ (rq_restart p = true \/ ok = true /\ sc_should_retry e p = true)
  | SOnline, SOffline => rq_offline p = true \/ rq_restart p = false /\ ok = false
  | SOffline, SInit => ok = true /\ wait_ms p < e_now e - tstamp p
  | SOffline, SOffline => ok = false \/ e_now e - tstamp p <= wait_ms p
  | _, _ => False
  end.

(* SCBK-D in use afterwards *)
Definition scbkd_ok (p q : pd) : Prop :=
  match state p, state q with
  | SCapdet, SChlng => use_scbkd (fl q) = false
  | SChlng, SChlng => use_scbkd (fl q) = true
  | SChlng, SOnline => use_scbkd (fl q) = false
  | SChlng, SOffline => use_scbkd (fl q) = use_scbkd (fl p) \/ use_scbkd (fl q) = false
  | SSetScbk, SChlng => use_scbkd (fl q) = false
  | _, _ => use_scbkd (fl q) = use_scbkd (fl p)
  end.

(* session open afterwards *)
Definition act_ok (p q : pd) (ok : bool) : Prop :=
  match state p, state q with
  | _, SOffline => (state p = SOffline /\ sc_active (fl q) = sc_active (fl p)) \/ sc_active (fl q) = false
  | SScrypt, SSetScbk => sc_active (fl q) = true
  | SScrypt, SOnline => if ok then sc_active (fl q) = true else sc_active (fl q) = sc_active (fl p)
  | SSetScbk, _ => sc_active (fl q) = false
  | _, _ => sc_active (fl q) = sc_active (fl p)
  end.

Definition seq_move (p q : pd) : Prop :=
  (seqn q = seqn p /\ retry q = retry p /\ state q <> SInit) \/
  (seqn q = -1 /\ retry q = 0 /\ (state p = SOffline /\ state q = SInit \/ rq_restart p = true /\ state p = SOnline)).

Definition time_move (e : env) (p q : pd) : Prop :=
  if st_eqb (state q) SOffline && negb (st_eqb (state p) SOffline) then tstamp q = e_now e /\ wait_ms q = 300000
  else tstamp q = tstamp p /\ wait_ms q = wait_ms p.

Definition sc_move (e : env) (p q : pd) : Prop :=
  if st_eqb (state q) SChlng && negb (st_eqb (state p) SChlng) then sc q = sc (sc_setup (e_rand e) p) else sc q = sc p.

Definition eph_move (p q : pd) : Prop :=
  if st_eqb (state q) SSetScbk then eph q = EphCmd (CKeyset 1 16 (scbk (sc p))) else eph q = eph p.

Record fin_rel (e : env) (p q : pd) (ok : bool) : Prop := {
  fr_core : lcore q = lcore p;
  fr_edge : edge_ok e p q ok;
  fr_scbkd : scbkd_ok p q;
  fr_act : act_ok p q ok;
  fr_seq : seq_move p q;
  fr_time : time_move e p q;
  fr_sc : sc_move e p q;
  fr_eph : eph_move p q;
  fr_rqoff : rq_offline q = true -> rq_offline p = true /\ state p <> SOnline /\ state q <> SOnline;
  fr_rqev : rq_event q = true -> rq_event p = true /\ state p <> SOnline /\ state q <> SOnline
}.

Lemma lcore_setup r p : lcore (sc_setup r p) = lcore p.
Proof. destruct (sc_setup_fields r p) as (s & ->). reflexivity. Qed.

(* effect of a move without the state specific part *)
Definition moved (e : env) (cur : cpstate) (p : pd) (next : cpstate) : pd :=
  fst (fst (let '(p2, n2, o2) := do_requests e p next in
   if st_eqb cur n2 then (p2, o2, n2) else let (p3, o3) := state_change e p2 n2 in (p3, o2, n2))).

Lemma finish_split e p ok o0 q rc o : finish_update e (state p) p ok o0 = Ok (q, rc, o) ->
  exists p1 n1 o1, (if ok : bool then next_ok_state e p else Ok (next_err_state e p)) = Ok (p1, n1, o1) /\ q = moved e (state p) p1 n1.
Proof.
  intros H. unfold finish_update in H.
  destruct (if ok then _ else _) as [[[p1 n1] o1]| |] eqn:NX; cbn [bind] in H; try discriminate.
  exists p1, n1, o1. split; auto. unfold moved. destruct (do_requests e p1 n1) as [[p2 n2] o2].
  destruct (st_eqb (state p) n2); [inv H; auto|]. destruct (state_change e p2 n2). inv H. auto.
Qed.

Lemma sc_setup_same r p q : pd_mode (fl q) = pd_mode (fl p) -> has_scbk (fl q) = has_scbk (fl p) -> sc q = sc p ->
  pid q = pid p -> sc (sc_setup r q) = sc (sc_setup r p).
Proof. intros A B C D. unfold sc_setup. rewrite A, B, C, D. destruct (pd_mode (fl p)); reflexivity. Qed.

(* the moves proper *)
Definition chg (e : env) (p : pd) (n : cpstate) : pd :=
  match n with
   | SInit => set_state SInit (state_reset true p)
   | SChlng => set_state SChlng (set_sc (sc (sc_setup (e_rand e) p)) p)
   | SOffline => set_state SOffline (set_sc_active false (set_wait_ms 300000 (set_tstamp (e_now e) p)))
   | n => set_state n p end.
Arguments chg : simpl never.

Lemma state_change_eqs e p n : fst (state_change e p n) = chg e p n.
Proof.
  destruct n; try reflexivity. unfold chg. simpl. unfold sc_setup. destruct (pd_mode (fl p)); reflexivity.
Qed.

Lemma moved_eq e cur p n : moved e cur p n =
  (let '(p2, n2, o2) := do_requests e p n in if st_eqb cur n2 then p2 else chg e p2 n2).
Proof. unfold moved. destruct (do_requests e p n) as [[p2 n2] o2]. rewrite <- state_change_eqs. destruct (st_eqb cur n2); auto. destruct (state_change e p2 n2); auto. Qed.

Lemma rqev_id p : rq_event p = false -> set_rq_event false p = p.
Proof. destruct p. simpl. intros ->. reflexivity. Qed.
Lemma rqoff_id p : rq_offline p = false -> set_rq_offline false p = p.
Proof. destruct p. simpl. intros ->. reflexivity. Qed.

Definition rq_done (p : pd) : pd :=
  set_rq_event false (set_rq_offline false (if rq_restart p then state_reset true (set_rq_restart false p) else p)).

Lemma do_requests_eq e p n : exists o, do_requests e p n =
  (if st_eqb (state p) SOnline || st_eqb n SOnline then
     (rq_done p, if rq_offline p then SOffline else if rq_restart p then SChlng else n, o)
   else (p, n, o)).
Proof.
  unfold do_requests, rq_done. destruct (st_eqb (state p) SOnline || st_eqb n SOnline); [|eexists; reflexivity].
  set (p1 := if rq_restart p then state_reset true (set_rq_restart false p) else p).
  assert (O1 : rq_offline p1 = rq_offline p) by (unfold p1; destruct (rq_restart p); reflexivity).
  assert (E1 : (if rq_restart p then (state_reset true (set_rq_restart false p), SChlng) else (p, n))
     = (p1, if rq_restart p then SChlng else n)) by (unfold p1; destruct (rq_restart p); reflexivity).
  rewrite E1. clearbody p1. cbv iota. rewrite O1.
  set (p2 := set_rq_offline false p1).
  assert (E2 : (if rq_offline p then (p2, SOffline) else (p1, if rq_restart p then SChlng else n))
     = (p2, if rq_offline p then SOffline else if rq_restart p then SChlng else n)).
  { unfold p2. destruct (rq_offline p) eqn:Q; [reflexivity|]. rewrite rqoff_id by congruence. reflexivity. }
  rewrite E2. clearbody p2. cbv iota. clear.
  destruct (rq_event p2) eqn:V; [eexists; reflexivity|]. rewrite rqev_id by exact V. eexists; reflexivity.
Qed.

Lemma keyset_complete_eq e p q o : keyset_complete e p = Ok (q, o) -> use_scbkd (fl p) = true -> state p <> SOnline ->
  q = set_sc_active false (set_use_scbkd false p).
Proof.
  intros H U S. unfold keyset_complete in H. rewrite U in H. simpl in H.
  destruct (state p); inv H; try reflexivity. contradiction.
Qed.

Ltac fr2 := try solve [reflexivity | repeat split; auto; congruence | left; repeat split; auto; congruence | right; repeat split; auto; congruence
            | apply sc_setup_same; reflexivity | intros; repeat split; auto; congruence | discriminate
            | left; repeat split; auto; discriminate | right; repeat split; auto; discriminate | repeat split; auto; discriminate].
Ltac fr1 SP := constructor; [unfold lcore, rq_done; simpl; try reflexivity | unfold edge_ok, scbkd_ok, act_ok, seq_move, time_move, sc_move, eph_move, rq_done; simpl;
  rewrite ?SP; simpl; auto; fr2 ..].

Lemma finish_rel e p ok o0 q rc o : finish_update e (state p) p ok o0 = Ok (q, rc, o) -> fin_pre p ->
  (state p = SSetScbk -> use_scbkd (fl p) = true) -> fin_rel e p q ok.
Proof.
  intros H P HS. destruct (finish_split _ _ _ _ _ _ _ H) as (p1 & n1 & o1 & NX & ->). clear H.
  assert (RQ := fp_rq _ P). assert (PH := fp_phy _ P). clear P.
  assert (RF : state p <> SOnline -> rq_restart p = false).
  { intros N. destruct (rq_restart p); auto. destruct (RQ eq_refl). contradiction. }
  rewrite moved_eq. destruct (do_requests_eq e p1 n1) as (o2 & ->).
  destruct ok; [unfold next_ok_state in NX | injection NX as NX; unfold next_err_state in NX].
  - destruct (state p) eqn:SP.
    + injection NX as <- <- <-. rewrite SP. simpl. unfold chg. fr1 SP.
    + destruct (sc_is_capable p) eqn:CA; [injection NX as <- <- <-; simpl; rewrite SP; simpl; unfold chg; fr1 SP|].
      destruct (enforce (fl p)) eqn:EN; injection NX as <- <- <-; rewrite SP; simpl; rewrite ?RF by discriminate; simpl;
        try (destruct (rq_offline p) eqn:RO); simpl; unfold chg; fr1 SP; rewrite ?RF by discriminate; rewrite ?SP; simpl; fr2.
    + injection NX as <- <- <-. rewrite SP. simpl. unfold chg. fr1 SP.
    + destruct (use_scbkd (fl (set_sc_active true p))) eqn:US; simpl in US; injection NX as <- <- <-; simpl; rewrite SP; simpl; rewrite ?RF by discriminate; simpl;
        try (destruct (rq_offline p) eqn:RO); simpl; unfold chg; fr1 SP; rewrite ?RF by discriminate; rewrite ?SP; simpl; fr2.
    + destruct (keyset_complete e p) as [[q2 o3]| |] eqn:KC; cbn [bind] in NX; try discriminate. cbn [fst snd] in NX. injection NX as <- <- <-.
      apply keyset_complete_eq in KC; auto; [|congruence]. subst q2. simpl; rewrite SP; simpl; rewrite ?RF by discriminate; simpl;
        unfold chg; fr1 SP; rewrite ?RF by discriminate; rewrite ?SP; simpl; fr2.
    + injection NX as <- <- <-. rewrite SP. simpl. destruct (rq_offline p) eqn:RO; destruct (rq_restart p) eqn:RR; simpl;
        try (destruct (sc_should_retry e p) eqn:SR); simpl; unfold chg; fr1 SP; rewrite ?RR, ?SP; simpl; fr2.
    + injection NX as <- <- <-. rewrite SP. destruct (e_now e - tstamp p >? wait_ms p) eqn:TT; simpl; unfold chg; fr1 SP.
      * split; auto. lia.
      * right. lia.
  - destruct (state p) eqn:SP.
    + injection NX as <- <- <-. rewrite SP. simpl. unfold chg. fr1 SP.
    + injection NX as <- <- <-. rewrite SP. simpl. unfold chg. fr1 SP.
    + destruct (enforce (fl p)) eqn:EN; [injection NX as <- <- <-; rewrite SP; simpl; unfold chg; fr1 SP|].
      destruct (use_scbkd (fl p)) eqn:US; simpl in NX; injection NX as <- <- <-; simpl; rewrite SP; simpl; rewrite ?RF by discriminate; simpl;
        try (destruct (rq_offline p) eqn:RO); simpl; unfold chg; fr1 SP; rewrite ?RF by discriminate; rewrite ?SP; simpl; fr2.
    + injection NX as <- <- <-. rewrite SP. destruct (enforce (fl p)) eqn:EN; simpl; rewrite ?RF by discriminate; simpl;
        try (destruct (rq_offline p) eqn:RO); simpl; unfold chg; fr1 SP; rewrite ?RF by discriminate; rewrite ?SP; simpl; fr2.
    + simpl in NX. rewrite HS in NX by auto. rewrite orb_true_r in NX.
      injection NX as <- <- <-. simpl. rewrite SP. simpl. unfold chg. fr1 SP.
    + injection NX as <- <- <-. rewrite SP. simpl. destruct (rq_offline p) eqn:RO; destruct (rq_restart p) eqn:RR; simpl;
        unfold chg; fr1 SP; rewrite ?RR, ?SP; simpl; fr2.
    + injection NX as <- <- <-. rewrite SP. simpl; unfold chg; fr1 SP.
Qed.
