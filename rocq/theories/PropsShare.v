(** Property theorem C62: several devices on one line. *)
From Verif Require Import Base ListLemmas Crc SpecCrc Aes Rb RbProofs Types Sc Phy File Pd Cp CpCtx PdRun SpecRx SpecFrame SpecSec SpecSession SpecCmd SpecApp SpecPd SpecCp SpecCpRun SpecLink SpecHand SpecTalk
  SpecLost RxProofs PdHist2 CpInv CpSum CpHist Talk Talk2 Talk3 Talk4 Talk5 Lost Lost2 ExPd ExCp ExLink PropsTalk PropsFile SpecHand SpecRun Run1 Run2 Run3 PropsRun SpecBus Bus PropsBus SpecShare Share Share2.
From Coq Require Import ZifyBool ZifyNat.
Local Opaque RB_SIZE aes_ecb_encrypt enc1 osdp_mac.

(** C62.  The panel works with any number of devices on one line, each hears everything, and none answers with
    a packet that has a second start byte inside (else C61 is refuted).  For each of them: the commands its
    application was asked to execute, then at most one that is under way, then those that wait, are the commands
    that were handed in for this device, in their order, none missing, none twice, and none of another device.
    Likewise the events. *)
Theorem C62_exact_partial : forall b l t tr i s0 s, all_at_work b -> shared b l t tr -> nth_error b i = Some s0 -> nth_error t i = Some s ->
  exists commands_under_way events_under_way,
    app_calls (seen_at i tr) ++ commands_under_way ++ map upto (cmdq (n_c (st_net s))) = map upto (cmdq (n_c (st_net s0)) ++ cmds_of (acts_at i l)) /\
    told_events (seen_at i tr) ++ events_under_way ++ map upto_ev (evq (n_p (st_net s))) = map upto_ev (evq (n_p (st_net s0)) ++ events_of (acts_at i l)) /\
    (length commands_under_way + length events_under_way <= 1)%nat /\
    (idle s -> commands_under_way = [] /\ events_under_way = []).
Proof.
  intros b l t tr i s0 s AW R B T. destruct (gd_each _ _ _ _ (shared_all b l t tr AW R) i s0 s B T) as (p0 & fc & fe & KP & _ & (C & E & _)). exists fc, fe. split; [exact C|]. split; [exact E|].
  pose proof (kp_phase _ _ _ _ KP) as P. split; [|intros I; apply (idle_phase (base s p0) fc fe I P)].
  destruct P as [P|j P|j P|r P]; try destruct j as [k|]; try destruct r as [ev|]; cbn [job_list rep_list length]; lia.
Qed.
Print Assumptions C62_exact_partial.

(** C62.  All stay online, each in its session if it had one; and whenever the panel is between two exchanges
    with a device and the device has heard all there is, the two agree as they did at the beginning. *)
Theorem C62_holds_partial : forall b l t tr i s0 s, all_at_work b -> shared b l t tr -> nth_error b i = Some s0 -> nth_error t i = Some s ->
  state (n_c (st_net s)) = SOnline /\ sc_active (fl (n_c (st_net s))) = sc_active (fl (n_c (st_net s0))) /\
  address (n_p (st_net s)) = address (n_p (st_net s0)) /\ (idle s -> caught_up s -> begins (st_net s)).
Proof.
  intros b l t tr i s0 s AW R B T. destruct (gd_each _ _ _ _ (shared_all b l t tr AW R) i s0 s B T) as (p0 & fc & fe & KP & AD & (_ & _ & A)).
  split; [apply (kp_steady _ _ _ _ KP)|]. split; [exact A|]. split; [exact AD|]. intros ID CU. destruct (settle s p0 fc fe KP CU) as [SD P].
  destruct (idle_phase _ _ _ ID P) as [P0 _]. clear - SD P0. set (n := st_net s) in *. clearbody n. destruct P0 as (ID & LN & T1 & T2). destruct SD.
  assert (SA : sc_active (fl (n_c n)) = sc_active (fl (n_p n))) by (destruct LN as [_ [(U & V & _)|Y]]; [congruence|destruct (is_act _ _ Y); congruence]).
  split; [|split; assumption]. split; try assumption; try (rewrite <- SA; assumption); try (apply sd_reach); try (apply sd_size).
  - split; try assumption; [apply sd_reach|]. destruct sd_size as [Z1 Z2]. split; [lia|exact Z2].
  - split; [assumption|]. split; assumption.
Qed.
Print Assumptions C62_holds_partial.

(** C62.  At most one device at a time has a command of the panel on the line, and only that device puts
    anything on the line. *)
Theorem C62_alone_partial : forall b l t tr, all_at_work b -> shared b l t tr ->
  (forall i j s u, i <> j -> nth_error t i = Some s -> nth_error t j = Some u -> silent s \/ silent u) /\
  (forall d t1 i s o, does t d t1 i o -> from_device d -> nth_error t i = Some s -> on_wire o <> [] -> ~ silent s).
Proof.
  intros b l t tr AW R. pose proof (shared_all b l t tr AW R) as G. split; [exact (gd_one _ _ _ _ G)|]. intros d t1 i s o D F T W I. apply W. clear W.
  assert (TI : exists s0, nth_error b i = Some s0).
  { destruct (nth_error b i) as [s0|] eqn:BI; [exists s0; reflexivity|]. exfalso. apply nth_error_None in BI. assert (X : nth_error t i <> None) by (rewrite T; discriminate). apply nth_error_Some in X. rewrite (gd_len _ _ _ _ G) in X. lia. }
  destruct TI as (s0 & BI). destruct (gd_each _ _ _ _ G i s0 s BI T) as (p0 & fc & fe & KP & _ & _).
  inversion D as [i' a s' n o' NI [AL MA] AC|i' e s' rest q o' NI ID IT EAR PD]; subst; rewrite NI in T; injection T as ->.
  - destruct a as [e|e|ev|e k]; try contradiction. destruct (st_refresh s p0 fc fe e n o KP MA AL AC) as (fc' & fe' & _ & _ & _ & _ & SI & _). exact (SI I).
  - destruct (st_listen s p0 fc fe e rest q o KP ID IT EAR PD) as (_ & _ & _ & ->). reflexivity.
Qed.
Print Assumptions C62_alone_partial.

(** C62.  No step ends in undefined behaviour or an abort. *)
Theorem C62_goes_on_partial : forall b l t tr i s, all_at_work b -> shared b l t tr -> nth_error t i = Some s ->
  (forall a, may_act t i s a -> exists t1 o, does t (DAct i a) t1 i o) /\
  (forall e rest, silent s -> in_time e (n_p (st_net s)) -> st_ear s = heard (e_rx e) ++ rest -> exists t1, does t (DListen i e) t1 i []).
Proof.
  intros b l t tr i s AW R T. pose proof (shared_all b l t tr AW R) as G.
  assert (TI : exists s0, nth_error b i = Some s0).
  { destruct (nth_error b i) as [s0|] eqn:BI; [exists s0; reflexivity|]. exfalso. apply nth_error_None in BI. assert (X : nth_error t i <> None) by (rewrite T; discriminate). apply nth_error_Some in X. rewrite (gd_len _ _ _ _ G) in X. lia. }
  destruct TI as (s0 & BI). destruct (gd_each _ _ _ _ G i s0 s BI T) as (p0 & fc & fe & KP & _ & _). split.
  - intros a MA. assert (X : exists n o, act a (st_net s) = Ok (n, o)).
    { destruct MA as [AL MA]. destruct a as [e|e|ev|e k].
      - assert (X : exists q o, cp_do (Update e) (n_c (st_net s)) = Ok (q, o)).
        { destruct (run_step (AUpdate e) (base s p0) fc fe (kp_steady _ _ _ _ KP) (kp_phase _ _ _ _ KP) AL) as (n & o & _ & _ & [X _] & _).
          cbn [act base n_c] in X. destruct (cp_do (Update e) (n_c (st_net s))) as [[q o1]| |]; cbn [bind] in X; try discriminate. exists q, o1. reflexivity. }
        destruct X as (q & o & X). cbn [act]. rewrite X. cbn [bind]. eexists _, _. reflexivity.
      - destruct (settle s p0 fc fe KP MA) as [SD P]. destruct (run_step (ARefresh e) (st_net s) fc fe SD P AL) as (n & o & _ & _ & [X _] & _). exists n, o. exact X.
      - eexists _, _. cbn [act]. unfold pd_do. cbn [bind]. reflexivity.
      - eexists _, _. cbn [act]. unfold cp_do. cbn [bind]. reflexivity. }
    destruct X as (n & o & AC). eexists _, o. apply (do_act t i a s n o T MA AC).
  - intros e rest ID IT EAR. assert (BN : benign (address (n_p (st_net s))) (pending (n_p (st_net s)) ++ heard (e_rx e) ++ rest)).
    { rewrite <- EAR, <- (kept_address _ _ _ _ KP). apply KP. }
    destruct (C61_goes_on (n_p (st_net s)) e rest (kp_reach _ _ _ _ KP) IT BN) as [q Q]. eexists. apply (do_listen t i e s rest q [] T ID IT EAR Q).
Qed.
Print Assumptions C62_goes_on_partial.

(** C62.  A device that has heard all there is deals with it within as many further refreshes as there are
    bytes in its buffers; then it can take part again. *)
Theorem C62_catches_up_partial : forall b l t tr i s es q o, all_at_work b -> shared b l t tr -> nth_error t i = Some s -> st_ear s = [] ->
  Forall (fun e => heard (e_rx e) = []) es -> (length (pending (n_p (st_net s))) <= length es)%nat -> bus_run (n_p (st_net s)) es q o -> pending q = [] /\ o = [].
Proof.
  intros b l t tr i s es q o AW R T EAR F L BR. pose proof (shared_all b l t tr AW R) as G.
  assert (TI : exists s0, nth_error b i = Some s0).
  { destruct (nth_error b i) as [s0|] eqn:BI; [exists s0; reflexivity|]. exfalso. apply nth_error_None in BI. assert (X : nth_error t i <> None) by (rewrite T; discriminate). apply nth_error_Some in X. rewrite (gd_len _ _ _ _ G) in X. lia. }
  destruct TI as (s0 & BI). destruct (gd_each _ _ _ _ G i s0 s BI T) as (p0 & fc & fe & KP & _ & _).
  pose proof (kp_ear _ _ _ _ KP) as BN. rewrite EAR, app_nil_r, (kept_address _ _ _ _ KP) in BN.
  split; [exact (C61_drains _ es q o (kp_reach _ _ _ _ KP) BN F L BR)|]. apply (C61_undisturbed_partial _ es q o [] (kp_reach _ _ _ _ KP)) in BR; [apply BR|].
  assert (ST : stream es = []) by (clear - F; induction F as [|e es H F IH]; [reflexivity|]; unfold stream in *; cbn [flat_map map concat]; rewrite H, IH; reflexivity). rewrite ST. cbn [app]. rewrite app_nil_r. exact BN.
Qed.
Print Assumptions C62_catches_up_partial.

(* --- a run, executed --- *)
(* a second pair, outside a session, at address 55 *)
Definition ex_info55 : pdinfo := mkInfo 9600 55 (ex_flags false false) (mkId 1 2 12648430 305419896 65793) ex_caps None 0.
Definition ex_cinfo55 : pdinfo := mkInfo 9600 55 (ex_cflags false false false false) (mkId 0 0 0 0 0) [] None 1.
Definition ex_55 := Eval vm_compute in duo 17 1000 (match new_pd 0 4 ex_cinfo55 with Some p => p | None => pd_zero end) (match pd_setup ex_info55 4 with Some p => p | None => pd_zero end) [] [] [].
Definition ex_c55 : pd := Eval vm_compute in fst (fst (fst ex_55)).
Definition ex_p55 : pd := Eval vm_compute in state_of (run (snd (fst (fst ex_55))) [SetCallback true]).
Lemma ex_c55_reach : cp_reach ex_c55.
Proof.
  assert (E : ex_c55 = state_of (crun_from ex_cinfo55 4 (map (fun x => Update (ex_env (fst x) [snd x])) (snd (fst ex_55))))) by (vm_compute; reflexivity).
  rewrite E. apply crun_reach; [exact I| |vm_compute; reflexivity]. ex_ccalls.
Qed.
Lemma ex_p55_reach : pd_reach ex_p55.
Proof.
  assert (E : ex_p55 = state_of (run_from ex_info55 4 (map (fun x => Refresh (ex_env (fst x) [snd x])) (snd ex_55) ++ [SetCallback true]))) by (vm_compute; reflexivity).
  rewrite E. apply run_reach; [exact (ex_info_typed false None I)| |vm_compute; reflexivity].
  apply Forall_app. split; [repeat apply Forall_cons; try apply Forall_nil; apply ex_env_typed; vm_compute; reflexivity|repeat (apply Forall_cons; [exact I|]); apply Forall_nil].
Qed.
Definition ex_net55 : net := mkNet ex_c55 ex_p55 1330 [] [].
Lemma ex_begins55 : begins ex_net55.
Proof.
  split; [|split; reflexivity]. constructor.
  - constructor.
    + exact ex_c55_reach.
    + reflexivity.
    + split; [constructor; vm_compute; repeat split; discriminate|left]. vm_compute. repeat split; try discriminate. auto.
    + split; ex_quiet.
    + vm_compute. split; discriminate.
  - exact ex_p55_reach.
  - repeat split; reflexivity.
  - vm_compute. auto.
  - right. vm_compute. reflexivity.
  - left. reflexivity.
  - vm_compute. discriminate.
  - reflexivity.
  - apply Forall_nil.
  - apply Forall_nil.
Qed.
Definition ex_n55 : net := Eval vm_compute in res_net (act (ASend (ex_env 1345 []) ex_c1) ex_net55).
Lemma ex_begins55c : begins ex_n55.
Proof.
  apply (C58_holds ex_net55 [ASend (ex_env 1345 []) ex_c1] ex_n55 [] ex_begins55); [|vm_compute; reflexivity].
  apply (ll_snoc ex_net55 [] ex_net55 [] (ASend (ex_env 1345 []) ex_c1) ex_n55 [] (ll_nil _)); [|vm_compute; reflexivity].
  split; [apply ex_cenv_typed; reflexivity|]. split; [|vm_compute; reflexivity]. split; [exact I|]. split; vm_compute; repeat split; discriminate.
Qed.
Definition ex_line : list station := [mkStation ex_n3 []; mkStation ex_n55 []].
Lemma ex_all_at_work : all_at_work ex_line.
Proof.
  split.
  - apply Forall_cons; [|apply Forall_cons; [|apply Forall_nil]]; (split; [|reflexivity]).
    + apply (C58_holds ex_net ex_in1 ex_n3 [] ex_begins ex_handed_in); vm_compute; reflexivity.
    + exact ex_begins55c.
  - vm_compute. repeat constructor; cbn [In]; intros H; repeat (destruct H as [H|H]; try discriminate); exact H.
Qed.

(* at station i a tick of PropsRun, or listening to the next k bytes at time t *)
Inductive beat := BT (i : nat) (x : tick) | BL (i : nat) (t : Z) (k : nat).
Definition idleb (s : station) : bool := match phy_state (n_c (st_net s)) with PIdle => true | _ => false end.
Definition silentb (s : station) : bool := match phy_state (n_c (st_net s)) with PIdle | PSend => true | _ => false end.
Definition caughtb (s : station) : bool := is_nil (st_ear s) && is_nil (pending (n_p (st_net s))).
Fixpoint others (i : nat) (b : list station) : list station := match b, i with [], _ => [] | _ :: b, O => b | t :: b, S i => t :: others i b end.
Definition one_startb (w : list Z) : bool := (length (filter (Z.eqb 83) w) <=? 1)%nat.
Definition listen_env (s : station) (t : Z) (k : nat) : env := ex_env t [firstn k (st_ear s)].
Definition beat_ok (b : list station) (x : beat) : bool :=
  match x with
  | BT i x =>
      match nth_error b i with
      | Some s => tick_ok (st_net s) x && match x with TU _ _ => (caughtb s || idleb s) && forallb silentb (others i b) | _ => caughtb s end
      | None => false
      end
  | BL i t k =>
      match nth_error b i with
      | Some s => let p := n_p (st_net s) in let h := firstn k (st_ear s) in
          silentb s && bytesb h && (length h <=? 64)%nat && (length (rb_contents (rb p)) + length h <? 512)%nat &&
          (is_nil (pending p) || (t - tstamp p <? 200)) && (negb (sc_active (fl p)) || (t - sc_tstamp p <=? 8000))
      | None => false
      end
  end.
Definition beat_deed (b : list station) (x : beat) : option (deed * nat * station * res (net * list out)) :=
  match x with
  | BT i x => match nth_error b i with Some s => let a := tick_act (st_net s) x in Some (DAct i a, i, s, act a (st_net s)) | None => None end
  | BL i t k => match nth_error b i with Some s => let e := listen_env s t k in Some (DListen i e, i, s,
      match pd_do (Refresh e) (n_p (st_net s)) with Ok (q, o) => Ok (mkNet (n_c (st_net s)) q (n_at (st_net s)) (to_p (st_net s)) (to_c (st_net s) ++ on_wire o), o) | UB x => UB x | Die x => Die x end) | None => None end
  end.
Definition beat_ear (x : beat) (s : station) : list Z := match x with BT _ _ => st_ear s | BL _ _ k => skipn k (st_ear s) end.
Definition is_device (x : beat) : bool := match x with BT _ (TU _ _) => false | _ => true end.
Fixpoint band (xs : list beat) (b : list station) : option (list station * list deed * list (nat * list out)) :=
  match xs with
  | [] => Some (b, [], [])
  | x :: xs =>
      if beat_ok b x then
        match beat_deed b x with
        | Some (d, i, s, Ok (n, o)) =>
            if negb (is_device x) || one_startb (on_wire o) then
              match band xs (spread i (mkStation n (beat_ear x s)) (on_wire o) b) with Some (t, l, tr) => Some (t, d :: l, (i, o) :: tr) | None => None end
            else None
        | _ => None
        end
      else None
  end.
Lemma nil_test {A} (w : list A) : match w with [] => true | _ => false end = true -> w = [].
Proof. destruct w; [reflexivity|discriminate]. Qed.
Lemma caught_test s : caughtb s = true -> caught_up s.
Proof. intros H. apply andb_true_iff in H. split; apply nil_test; apply H. Qed.
Lemma idle_test s : idleb s = true -> idle s.
Proof. unfold idleb, idle. destruct (phy_state (n_c (st_net s))); try discriminate. reflexivity. Qed.
Lemma silent_test s : silentb s = true -> silent s.
Proof. unfold silentb, silent. destruct (phy_state (n_c (st_net s))); try discriminate; auto. Qed.
Lemma one_test w : one_startb w = true -> one_start w.
Proof.
  intros H u v -> V. unfold one_startb in H. apply Nat.leb_le in H. apply in_split in V. destruct V as (a & c & ->). rewrite filter_app in H. cbn [filter] in H. rewrite Z.eqb_refl, filter_app in H. cbn [filter] in H. rewrite Z.eqb_refl in H.
  rewrite app_length in H. cbn [length] in H. rewrite app_length in H. cbn [length] in H. lia.
Qed.
Lemma others_in i : forall b j t, j <> i -> nth_error b j = Some t -> In t (others i b).
Proof.
  induction i as [|i IH]; intros [|s b] [|j] t N H; try discriminate; try (destruct (N eq_refl)); cbn [nth_error others] in *.
  - exact (nth_error_In _ _ H).
  - left. injection H as ->. reflexivity.
  - right. apply (IH b j t); [intros ->; apply N; reflexivity|exact H].
Qed.
Lemma beat_does t x d i s n o : beat_ok t x = true -> beat_deed t x = Some (d, i, s, Ok (n, o)) -> negb (is_device x) || one_startb (on_wire o) = true ->
  does t d (spread i (mkStation n (beat_ear x s)) (on_wire o) t) i o /\ (from_device d -> one_start (on_wire o)).
Proof.
  intros BO BD OS.
  destruct x as [j x|j tm k]; cbn [beat_ok beat_deed] in BO, BD; destruct (nth_error t j) as [s'|] eqn:NT; try discriminate; cbv zeta in BD.
      - injection BD as <- <- <- AC. apply andb_true_iff in BO. destruct BO as [B1 B2]. split.
        + cbn [beat_ear]. apply (do_act t j (tick_act (st_net s') x) s' n o NT); [|exact AC]. split; [exact (tick_allowed _ _ B1)|].
          destruct x as [tm h|tm h]; cbn [tick_act]; [|exact (caught_test _ B2)]. apply andb_true_iff in B2. destruct B2 as [B2 B3].
          split; [apply orb_true_iff in B2; destruct B2 as [B2|B2]; [left; exact (caught_test _ B2)|right; exact (idle_test _ B2)]|].
          intros k u N U. apply silent_test. rewrite forallb_forall in B3. apply B3. exact (others_in j t k u N U).
        + intros F. apply one_test. destruct x; cbn [tick_act from_device is_device negb orb] in *; [contradiction|exact OS].
      - destruct (pd_do (Refresh (listen_env s' tm k)) (n_p (st_net s'))) as [[q o']| |] eqn:PD; try discriminate. injection BD as <- <- <- <- <-.
        repeat (apply andb_true_iff in BO; destruct BO as [BO ?B]). split; [|intros _; apply one_test; exact OS].
        cbn [beat_ear]. apply Nat.leb_le in B2.
        assert (HH : heard [firstn k (st_ear s')] = firstn k (st_ear s')). { cbn [heard]. rewrite (firstn_all2 (firstn k (st_ear s'))) by exact B2. destruct (Nat.eqb _ _); [apply app_nil_r|reflexivity]. }
        apply (do_listen t j (listen_env s' tm k) s' (skipn k (st_ear s')) q o' NT (silent_test _ BO)); [|change (e_rx (listen_env s' tm k)) with [firstn k (st_ear s')]; rewrite HH; symmetry; apply firstn_skipn|exact PD].
        constructor.
        + apply ex_env_typed. cbn [forallb]. rewrite B3. reflexivity.
        + change (e_rx (listen_env s' tm k)) with [firstn k (st_ear s')]. rewrite HH. apply Nat.ltb_lt in B1. change RB_SIZE with 512%nat. exact B1.
        + change (e_now (listen_env s' tm k)) with tm. apply orb_true_iff in B0. destruct B0 as [B0|B0]; [left; apply nil_test, B0|right; apply Z.ltb_lt, B0].
        + intros A. change (e_now (listen_env s' tm k)) with tm. rewrite A in B. apply Z.leb_le, B.
Qed.
Lemma band_shared b xs : forall t l tr t' l' tr', shared b l t tr -> band xs t = Some (t', l', tr') -> shared b (l ++ l') t' (tr ++ tr').
Proof.
  induction xs as [|x xs IH]; intros t l tr t' l' tr' R P; cbn [band] in P.
  - injection P as <- <- <-. rewrite !app_nil_r. exact R.
  - destruct (beat_ok t x) eqn:BO; [|discriminate]. destruct (beat_deed t x) as [[[[d i] s] [[n o]| |]]|] eqn:BD; try discriminate.
    destruct (negb (is_device x) || one_startb (on_wire o)) eqn:OS; [|discriminate].
    destruct (band xs (spread i (mkStation n (beat_ear x s)) (on_wire o) t)) as [[[t2 l2] tr2]|] eqn:P2; [|discriminate]. injection P as <- <- <-.
    pose proof (beat_does t x d i s n o BO BD OS) as ST.
    destruct ST as [DO F1]. pose proof (IH _ _ _ _ _ _ (sh_snoc b l t tr d _ i o R DO F1) P2) as Q. rewrite <- !app_assoc in Q. exact Q.
Qed.

(* both get their command while they hear each other; then both report their events *)
Definition ex_beats : list beat :=
  [BT 0 (TU 1400 false); BT 1 (TU 1400 false); BT 0 (TU 1401 false); BL 1 1402 5; BT 0 (TR 1403 true); BL 1 1404 60; BT 0 (TU 1405 true); BL 1 1406 60; BL 1 1407 60; BL 1 1408 0; BL 1 1409 0;
   BT 1 (TU 1411 false); BT 1 (TR 1412 true); BL 0 1413 10; BL 0 1414 60; BT 1 (TU 1415 true); BT 0 (TU 1416 false); BL 0 1416 60; BL 0 1417 0; BL 0 1418 0;
   BT 0 (TU 1500 false); BT 0 (TU 1501 false); BT 0 (TR 1502 true); BT 0 (TU 1503 true); BL 1 1504 64; BL 1 1505 64; BL 1 1506 0; BL 1 1507 0; BL 1 1508 0;
   BT 0 (TU 1600 false); BT 0 (TU 1601 false); BT 0 (TR 1602 true); BT 0 (TU 1603 true); BL 1 1604 64; BL 1 1605 64; BL 1 1606 0; BL 1 1607 0; BL 1 1608 0]%nat.
Lemma band_runs b xs t l tr : band xs b = Some (t, l, tr) -> shared b l t tr.
Proof. exact (band_shared b xs b [] [] t l tr (sh_nil b)). Qed.
Example C62_example : all_at_work ex_line /\
  exists l t tr, shared ex_line l t tr /\ length l = 38%nat /\ map (fun s => sc_active (fl (n_c (st_net s)))) t = [true; false] /\
    app_calls (seen_at 0 tr) = [ex_led] /\ told_events (seen_at 0 tr) = [ex_ev_card; ex_ev_in] /\ app_calls (seen_at 1 tr) = [ex_c1] /\ map idleb t = [true; true] /\ map caughtb t = [true; true].
Proof.
  split; [exact ex_all_at_work|].
  assert (X : match band ex_beats ex_line with
    | Some (t, l, tr) => (length l, map (fun s => sc_active (fl (n_c (st_net s)))) t, app_calls (seen_at 0 tr), told_events (seen_at 0 tr), app_calls (seen_at 1 tr), map idleb t, map caughtb t) =
        (38%nat, [true; false], [ex_led], [ex_ev_card; ex_ev_in], [ex_c1], [true; true], [true; true])
    | None => False end) by (vm_compute; reflexivity).
  destruct (band ex_beats ex_line) as [[[t l] tr]|] eqn:E; [|destruct X]. exists l, t, tr. split; [exact (band_runs _ _ _ _ _ E)|].
  injection X as -> -> -> -> -> -> ->. repeat split; reflexivity.
Qed.
