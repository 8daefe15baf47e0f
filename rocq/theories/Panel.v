(** Several devices on one line: the panel as a whole. *)
From Verif Require Import Base ListLemmas Crc SpecCrc CrcProofs CrcBurst Aes AesProofs Rb RbProofs
  Types Sc ScProofs Phy PhyCheck File Pd Cp PdRun SpecRx SpecFrame SpecSec SpecSession SpecCmd SpecApp SpecPd SpecLink RxProofs RxFwd PdRx PdCore PhyTx PdTx PdReply
  PdStep PdWire PdFwd PdSpeak PdSec PdApp PdTrace PdHist PdHist2 MacProofs WireSec CpCtx SpecCp SpecCpRun CpTx CpRx CpStep CpInv CpEdge CpFacts CpSum CpWire CpFwd Chunk Trip ChunkRun LinkProofs LinkStep CpSend SpecTalk Hand Line Talk Talk2 Talk3 Talk4 Talk5 PdPlain PdRefuse SpecLost Lost Lost2 SpecHand SpecRun Run1 Run2 Run3 SpecBus Bus Keys SpecRun CtxProofs SpecCtx SpecShare Share Share2 SpecPanel.
From Coq Require Import ZifyBool ZifyNat.
Ltac Zify.zify_post_hook ::= Z.div_mod_to_equations.
Local Opaque aes_ecb_encrypt aes_cbc_encrypt aes_cbc_decrypt mac_of RB_SIZE osdp_mac enc1 osdp_encrypt encrypt_data cap_entries.

(* --- a refresh is made of turns --- *)
Lemma turned_cons c e d b o tr m : refresh_pd e c (c_cur c) = Ok (d, b, o) -> turned (after b d (c_cur c)) tr m -> turned c ((c_cur c, o) :: tr) m.
Proof.
  intros H T. induction T as [|tr m e' d' b' o' T IH H'].
  - exact (td_snoc c [] c e d b o (td_nil c) H).
  - exact (td_snoc c ((c_cur c, o) :: tr) m e' d' b' o' IH H').
Qed.
Lemma loop_turned es : forall k c d tr, refresh_loop es k c = Ok (d, tr) -> turned c tr d.
Proof.
  induction k as [|k IH]; intros c d tr H; cbn [refresh_loop] in H.
  - injection H as <- <-. apply td_nil.
  - destruct (refresh_pd (es (Datatypes.S k)) c (c_cur c)) as [[[c1 b] o]| |] eqn:E; cbn [bind] in H; try discriminate. destruct b.
    + destruct (refresh_loop es k (mkCtx (c_pds c1) (next_cur c1 (c_cur c)) (c_nchan c1) (c_lock c1))) as [[d1 t1]| |] eqn:E2; cbn [bind fst snd] in H; try discriminate. injection H as <- <-.
      exact (turned_cons c _ c1 true o t1 d1 E (IH _ _ _ E2)).
    + injection H as <- <-. exact (turned_cons c _ c1 false o [] c1 E (td_nil _)).
Qed.

(* --- the lock --- *)
Lemma held_passed e m i : cinv m -> held m i -> (forall p, nth_error (c_pds m) i = Some p -> chan_id p <> 0) -> refresh_pd e m i = Ok (m, true, []).
Proof.
  intros V (p & j & NI & NE & (q & NJ & CQ & WQ)) CH. unfold refresh_pd. rewrite NI.
  assert (SP : chn_shared (fl p) = true) by (apply (cv_shared _ V i j p q); [intros X; apply NE; symmetry; exact X|exact NI|exact NJ|symmetry; exact CQ]).
  assert (SQ : chn_shared (fl q) = true) by (apply (cv_shared _ V j i q p NE NJ NI CQ)).
  apply waiting_iff in WQ. specialize (CH p NI). rewrite SP. unfold acquire. rewrite (cv_idx _ V i p NI), Nat2Z.id.
  pose proof (cv_lock _ V i p NI SP) as L. replace (Nat.leb (length (c_lock m)) i) with false by (symmetry; apply Nat.leb_gt; exact L).
  assert (WP : waiting p = false). { destruct (waiting p) eqn:W; [exfalso|reflexivity]. apply (cv_excl _ V j i q p NE NJ NI CQ); [congruence|exact WQ|exact W]. }
  rewrite (cv_held _ V i p NI), WP, andb_false_r. replace (0 =? chan_id p) with false by lia. cbn [negb Z.eqb].
  assert (EX : existsb (fun x => x =? chan_id p) (c_lock m) = true).
  { apply existsb_exists. exists (nth j (c_lock m) 0). split; [apply nth_In; exact (cv_lock _ V j q NJ SQ)|]. rewrite (cv_held _ V j q NJ), SQ, WQ. cbn [andb]. lia. }
  rewrite EX. cbn [bind]. reflexivity.
Qed.
Lemma after_inv b d i p : cinv d -> nth_error (c_pds d) i = Some p -> cinv (after b d i).
Proof.
  intros V N. destruct b; [|exact V]. destruct V. constructor; cbn [after c_pds c_lock c_cur]; try assumption.
  right. rewrite (next_turn d i p N (cv_idx i p N)). apply Nat.mod_upper_bound. apply ne_lt in N. lia.
Qed.

(* the stations are those of the panel *)
Definition fits_panel (ch : Z) (m : ctx) (t : list station) : Prop :=
  cinv m /\ Forall (fun p => chan_id p = ch) (c_pds m) /\ c_pds m = map (fun s => n_c (st_net s)) t.
Lemma spread_panel i s w : forall t s0, nth_error t i = Some s0 -> map (fun s => n_c (st_net s)) (spread i s w t) = upd i (n_c (st_net s)) (map (fun s => n_c (st_net s)) t).
Proof.
  induction i as [|i IH]; intros [|u t] s0 H; try discriminate; cbn [spread map upd nth_error] in *.
  - rewrite map_map. reflexivity.
  - rewrite (IH t s0 H). reflexivity.
Qed.
Lemma upd_same {A} i (v : A) : forall l, nth_error l i = Some v -> upd i v l = l.
Proof. induction i as [|i IH]; intros [|u l] H; try discriminate; cbn [upd nth_error] in *; [injection H as ->; reflexivity|rewrite (IH l H); reflexivity]. Qed.
Lemma panel_nth ch m t i s : fits_panel ch m t -> nth_error t i = Some s -> nth_error (c_pds m) i = Some (n_c (st_net s)).
Proof. intros (_ & _ & E) H. rewrite E, nth_error_map, H. reflexivity. Qed.

(* what is not silent waits *)
Lemma busy_waits s p0 fc fe : kept s p0 fc fe -> silent s \/ phy_state (n_c (st_net s)) = PReplyWait.
Proof. intros K. destruct (kp_phase _ _ _ _ K) as [H|j H|j H|r H]; destruct H as [H _]; [left; left; exact H|left; right; exact H|right; exact H|right; exact H]. Qed.

Lemma panel_keeps m0 b0 l m t tr ch : all_at_work b0 -> ch <> 0 -> fits_panel ch m0 b0 -> panel_run m0 b0 l m t tr -> fits_panel ch m t /\ shared b0 l t tr.
Proof.
  intros AW CH F0 R. induction R as [|l m t tr e d b o s n R IH RF NH NT CU AL AC|l m t tr e d b o R IH RF ET HD|l m t tr i e k d o s n R IH CD NT AL AC|l m t tr x t1 i o R IH PX DO OS].
  - split; [exact F0|apply sh_nil].
  - destruct IH as [F IH]. pose proof F as F'. destruct F' as (V & FC & EQ). pose proof (panel_nth _ _ _ _ _ F NT) as NP.
    assert (ET : env_typed e) by (destruct AL as (_ & _ & [[_ H]|[N _]]); [apply H|apply N]).
    destruct (refresh_turn _ _ _ _ _ _ V ET RF) as (TN & VD).
    assert (TD : exists q rc, state_update e (n_c (st_net s)) = Ok (q, rc, o) /\ c_pds d = upd (c_cur m) q (c_pds m)).
    { clear - TN NH NP. destruct TN as [p j N J C W E | p q rc o1 N U E1 E2 E3]; [exfalso; apply NH; exists p, j; auto|]. rewrite NP in N. injection N as <-. exists q, rc. auto. }
    destruct TD as (q & rc & U & E1).
    assert (NQ : n_c n = q). { cbn [act] in AC. unfold cp_do in AC. rewrite U in AC. cbn [bind fst snd] in AC. injection AC as <-. reflexivity. }
    assert (LT : (c_cur m < length (c_pds m))%nat) by (apply ne_lt in NP; exact NP).
    split.
    + split; [apply (after_inv _ d (c_cur m) q VD); rewrite E1; apply ne_upd_same; exact LT|]. split.
      * assert (X : forall z, c_pds (after z d (c_cur m)) = c_pds d) by (intros []; reflexivity). rewrite X, E1. apply upd_Forall; [exact FC|].
        pose proof (upd_place e _ q rc o (cp_reach_inv _ (proj1 (Forall_forall _ _) (cv_reach _ V) _ (nth_error_In _ _ NP))) ET U) as PL. unfold place in PL. injection PL as _ PL _. rewrite PL.
        exact (proj1 (Forall_forall _ _) FC _ (nth_error_In _ _ NP)).
      * assert (X : forall z, c_pds (after z d (c_cur m)) = c_pds d) by (intros []; reflexivity). rewrite X, E1, (spread_panel _ _ _ _ s NT), <- EQ. cbn [st_net]. rewrite NQ. reflexivity.
    + apply (sh_snoc b0 l t tr (DAct (c_cur m) (AUpdate e)) _ (c_cur m) o IH); [|intros []]. apply (do_act t (c_cur m) (AUpdate e) s n o NT); [|exact AC].
      split; [exact AL|]. split; [exact CU|]. intros j u NE NU. pose proof (shared_all b0 l t tr AW IH) as G.
      assert (TI : exists s0, nth_error b0 j = Some s0).
      { destruct (nth_error b0 j) as [s0|] eqn:BI; [exists s0; reflexivity|]. exfalso. apply nth_error_None in BI. assert (X : nth_error t j <> None) by (rewrite NU; discriminate). apply nth_error_Some in X. rewrite (gd_len _ _ _ _ G) in X. lia. }
      destruct TI as (s0 & BI). destruct (gd_each _ _ _ _ G j s0 u BI NU) as (p0 & fc & fe & KP & _). destruct (busy_waits _ _ _ _ KP) as [X|X]; [exact X|].
      exfalso. apply NH. exists (n_c (st_net s)), j. split; [exact NP|]. split; [exact NE|]. pose proof (panel_nth _ _ _ _ _ F NU) as NUP. exists (n_c (st_net u)). split; [exact NUP|]. split; [|exact X].
      rewrite (proj1 (Forall_forall _ _) FC _ (nth_error_In _ _ NUP)), (proj1 (Forall_forall _ _) FC _ (nth_error_In _ _ NP)). reflexivity.
  - destruct IH as [F IH]. split; [|exact IH]. destruct F as (V & FC & EQ). pose proof HD as (p & j & N & _).
    assert (CP : forall x, nth_error (c_pds m) (c_cur m) = Some x -> chan_id x <> 0) by (intros x NX; rewrite (proj1 (Forall_forall _ _) FC _ (nth_error_In _ _ NX)); exact CH).
    rewrite (held_passed e m (c_cur m) V HD CP) in RF. injection RF as <- <- <-. split; [exact (after_inv true m (c_cur m) p V N)|]. split; [exact FC|exact EQ].
  - destruct IH as [F IH]. pose proof F as F'. destruct F' as (V & FC & EQ). pose proof (panel_nth _ _ _ _ _ F NT) as NP.
    assert (TY : ctx_typed (CxOn i (Send e k))).
    { destruct AL as (ET & (PC & IR & _) & _). split; [exact Logic.I|]. split; [exact ET|exact (plain_bytes k IR PC)]. }
    destruct (ctx_step _ m d [(i, o)] V TY Logic.I CD) as (VD & _ & _). cbn [ctx_do] in CD. rewrite NP in CD.
    destruct (cp_do (Send e k) (n_c (st_net s))) as [[q oq]| |] eqn:D; cbn [bind fst snd] in CD; try discriminate. injection CD as <- <-. cbn [act] in AC. rewrite D in AC. cbn [bind fst snd] in AC. injection AC as <-.
    split.
    + split; [exact VD|]. split; cbn [c_pds].
      * apply upd_Forall; [exact FC|]. destruct (app_place (Send e k) _ q oq Logic.I D) as [PL _]. unfold place in PL. injection PL as _ PL _. rewrite PL. exact (proj1 (Forall_forall _ _) FC _ (nth_error_In _ _ NP)).
      * rewrite (spread_panel _ _ _ _ s NT), <- EQ. reflexivity.
    + apply (sh_snoc b0 l t tr (DAct i (ASend e k)) _ i oq IH); [|intros []]. apply (do_act t i (ASend e k) s _ oq NT); [split; [exact AL|exact Logic.I]|]. cbn [act]. rewrite D. reflexivity.
  - destruct IH as [F IH]. split; [|exact (sh_snoc b0 l t tr x t1 i o IH DO OS)]. destruct F as (V & FC & EQ). split; [exact V|]. split; [exact FC|]. rewrite EQ.
    destruct DO as [i a s n o NI MA AC|i e s rest q o NI ID IT EAR D]; rewrite (spread_panel _ _ _ _ s NI); cbn [st_net n_c]; symmetry; apply upd_same; rewrite nth_error_map, NI; cbn [option_map]; [|reflexivity].
    destruct a as [e|e|ev|e k]; try contradiction; [rewrite (act_device e _ _ _ AC); reflexivity|]. cbn [act] in AC. unfold pd_do in AC. cbn [bind fst snd] in AC. injection AC as <- _. reflexivity.
Qed.
Lemma work_fits m b : panel_at_work m b -> all_at_work b /\ exists ch, ch <> 0 /\ fits_panel ch m b.
Proof. intros ((bl & l & h & R & FX) & (ch & CH & FC) & EQ & AW). split; [exact AW|]. exists ch. split; [exact CH|]. split; [exact (ctx_inv _ _ _ _ R FX)|]. split; assumption. Qed.
Lemma free_turn e m i p q rc o : cinv m -> ~ held m i -> chan_id p <> 0 -> nth_error (c_pds m) i = Some p -> state_update e p = Ok (q, rc, o) -> exists d b, refresh_pd e m i = Ok (d, b, o).
Proof.
  intros V NH CP NI U. unfold refresh_pd. rewrite NI. set (r := if chn_shared (fl p) then acquire (c_lock m) p else Ok (Some (c_lock m))).
  assert (A : exists lk, r = Ok (Some lk)).
  { unfold r. destruct (chn_shared (fl p)) eqn:SP; [|eauto]. unfold acquire. rewrite (cv_idx _ V i p NI), Nat2Z.id.
    pose proof (cv_lock _ V i p NI SP) as L. replace (Nat.leb (length (c_lock m)) i) with false by (symmetry; apply Nat.leb_gt; exact L).
    rewrite (cv_held _ V i p NI), SP. cbn [andb]. destruct (waiting p) eqn:WP; [rewrite Z.eqb_refl; eauto|]. replace (0 =? chan_id p) with false by lia. cbn [negb Z.eqb].
    destruct (existsb (fun x => x =? chan_id p) (c_lock m)) eqn:EX; [exfalso|eauto]. destruct (in_lock _ _ EX) as (j & LJ & NJ).
    assert (LP : length (c_lock m) = length (c_pds m)) by (destruct (cv_len _ V) as [X|X]; [rewrite X in L; inversion L|exact X]). rewrite LP in LJ.
    destruct (nth_error (c_pds m) j) as [u|] eqn:NU; [|apply nth_error_None in NU; lia]. rewrite (cv_held _ V j u NU) in NJ. destruct (chn_shared (fl u) && waiting u) eqn:SW; [|lia]. apply andb_true_iff in SW.
    assert (NE : j <> i). { intros ->. rewrite NI in NU. injection NU as <-. destruct SW as [_ SW]. congruence. }
    apply NH. exists p, j. split; [exact NI|]. split; [exact NE|]. exists u. split; [exact NU|]. split; [exact NJ|apply waiting_iff, SW]. }
  destruct A as (lk & ->). cbn [bind]. rewrite U. cbn [bind]. destruct (chn_shared (fl q)); [destruct rc|]; eauto.
Qed.
