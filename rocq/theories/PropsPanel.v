(** Property theorem C62 for the panel as a whole. *)
From Verif Require Import Base ListLemmas Crc SpecCrc Aes Rb RbProofs Types Sc Phy File Pd Cp CpCtx PdRun SpecRx SpecFrame SpecSec SpecSession SpecCmd SpecApp SpecPd SpecCp SpecCpRun SpecCtx SpecLink SpecHand SpecTalk
  SpecLost RxProofs PdHist2 CpInv CpSum CpHist CtxProofs Talk Talk2 Talk3 Talk4 Talk5 Lost Lost2 ExPd ExCp ExLink PropsTalk PropsFile PropsCtx SpecHand SpecRun Run1 Run2 Run3 PropsRun SpecBus Bus PropsBus SpecShare Share Share2 PropsShare SpecPanel Panel.
From Coq Require Import ZifyBool ZifyNat.
Local Opaque RB_SIZE aes_ecb_encrypt enc1 osdp_mac.

(** C62.  A refresh of the panel is made of turns. *)
Theorem C62_turns : forall es c d tr, cp_refresh es c = Ok (d, tr) -> turned c tr d.
Proof. intros es c d tr H. exact (loop_turned es (length (c_pds c)) c d tr H). Qed.
Print Assumptions C62_turns.

(** C62.  The lock of the channel sees to it that the panel turns to one device at a time: in any run of the
    panel as a whole with its devices, every device gets exactly what was handed in for it, the panel is told
    exactly what the devices reported, all stay online and in their sessions, and at most one has anything on
    the line. *)
Theorem C62_panel_partial : forall m0 b l m t tr, panel_at_work m0 b -> panel_run m0 b l m t tr ->
  c_pds m = map (fun s => n_c (st_net s)) t /\
  (forall i j s u, i <> j -> nth_error t i = Some s -> nth_error t j = Some u -> silent s \/ silent u) /\
  forall i s0 s, nth_error b i = Some s0 -> nth_error t i = Some s ->
    state (n_c (st_net s)) = SOnline /\ sc_active (fl (n_c (st_net s))) = sc_active (fl (n_c (st_net s0))) /\
    exists commands_under_way events_under_way,
      app_calls (seen_at i tr) ++ commands_under_way ++ map upto (cmdq (n_c (st_net s))) = map upto (cmdq (n_c (st_net s0)) ++ cmds_of (acts_at i l)) /\
      told_events (seen_at i tr) ++ events_under_way ++ map upto_ev (evq (n_p (st_net s))) = map upto_ev (evq (n_p (st_net s0)) ++ events_of (acts_at i l)) /\
      (length commands_under_way + length events_under_way <= 1)%nat /\
      (idle s -> commands_under_way = [] /\ events_under_way = []).
Proof.
  intros m0 b l m t tr W R. destruct (work_fits m0 b W) as (AW & ch & CH & F). destruct (panel_keeps m0 b l m t tr ch AW CH F R) as ((_ & _ & EQ) & SH).
  split; [exact EQ|]. split; [exact (proj1 (C62_alone_partial b l t tr AW SH))|]. intros i s0 s B T.
  destruct (C62_holds_partial b l t tr i s0 s AW SH B T) as (H1 & H2 & _). split; [exact H1|]. split; [exact H2|]. exact (C62_exact_partial b l t tr i s0 s AW SH B T).
Qed.
Print Assumptions C62_panel_partial.

(** C62.  The next turn of the panel is always possible.  If another device waits for its answer the entry is
    passed over and nothing is read, sent or called; otherwise it is updated. *)
Theorem C62_next_turn_partial : forall m0 b l m t tr s e, panel_at_work m0 b -> panel_run m0 b l m t tr -> nth_error t (c_cur m) = Some s -> env_typed e ->
  (held m (c_cur m) -> refresh_pd e m (c_cur m) = Ok (m, true, [])) /\
  (~ held m (c_cur m) -> caught_up s \/ idle s -> allowed (st_net s) (AUpdate e) ->
     exists d b' o n, refresh_pd e m (c_cur m) = Ok (d, b', o) /\ act (AUpdate e) (st_net s) = Ok (n, o)).
Proof.
  intros m0 b l m t tr s e W R NT ET. destruct (work_fits m0 b W) as (AW & ch & CH & F). destruct (panel_keeps m0 b l m t tr ch AW CH F R) as (F1 & SH).
  pose proof (panel_nth _ _ _ _ _ F1 NT) as NP. destruct F1 as (V & FC & EQ). split.
  - intros HD. apply (held_passed e m (c_cur m) V HD). intros x NX. rewrite (proj1 (Forall_forall _ _) FC _ (nth_error_In _ _ NX)). exact CH.
  - intros NH CU AL.
    assert (OT : forall j u, j <> c_cur m -> nth_error t j = Some u -> silent u).
    { intros j u NE NU. pose proof (shared_all b l t tr AW SH) as G.
      assert (TI : exists s0, nth_error b j = Some s0).
      { destruct (nth_error b j) as [s0|] eqn:BI; [exists s0; reflexivity|]. exfalso. apply nth_error_None in BI. assert (X : nth_error t j <> None) by (rewrite NU; discriminate). apply nth_error_Some in X. rewrite (gd_len _ _ _ _ G) in X. lia. }
      destruct TI as (s0 & BI). destruct (gd_each _ _ _ _ G j s0 u BI NU) as (p0 & fc & fe & KP & _). destruct (busy_waits _ _ _ _ KP) as [X|X]; [exact X|].
      exfalso. apply NH. exists (n_c (st_net s)), j. split; [exact NP|]. split; [exact NE|]. assert (NUP : nth_error (c_pds m) j = Some (n_c (st_net u))) by (rewrite EQ, nth_error_map, NU; reflexivity).
      exists (n_c (st_net u)). split; [exact NUP|]. split; [|exact X].
      rewrite (proj1 (Forall_forall _ _) FC _ (nth_error_In _ _ NUP)), (proj1 (Forall_forall _ _) FC _ (nth_error_In _ _ NP)). reflexivity. }
    destruct (proj1 (C62_goes_on_partial b l t tr (c_cur m) s AW SH NT) (AUpdate e) (conj AL (conj CU OT))) as (t1 & o & DO).
    inversion DO as [i' a' s' n o' NI MA AC|]; subst. rewrite NT in NI. injection NI as <-.
    assert (U : exists q rc, state_update e (n_c (st_net s)) = Ok (q, rc, o)).
    { clear - AC. cbn [act] in AC. unfold cp_do in AC. destruct (state_update e (n_c (st_net s))) as [[[q rc] o1]| |]; cbn [bind fst snd] in AC; try discriminate. injection AC as _ <-. exists q, rc. reflexivity. }
    destruct U as (q & rc & U). assert (CP : chan_id (n_c (st_net s)) <> 0) by (rewrite (proj1 (Forall_forall _ _) FC _ (nth_error_In _ _ NP)); exact CH).
    destruct (free_turn e m (c_cur m) _ q rc o V NH CP NP U) as (d & b' & RF). exists d, b', o, n. split; [exact RF|exact AC].
Qed.
Print Assumptions C62_next_turn_partial.

(* --- a run, executed --- *)
(* a panel with two devices on channel 1, started together with them: an answer is read in the first turn of a
   refresh *)
Definition at_first (t : Z) (rx : list Z) (k : nat) : env := ex_env t (if Nat.eqb k 2 then [rx] else []).
Definition said_at (i : nat) (l : list (nat * list out)) : list Z := said (seen_at i l).
Fixpoint trio (k : nat) (t : Z) (c : ctx) (p q : pd) (rx : list Z) (xs ys zs : list (Z * list Z)) : ctx * pd * pd * list (Z * list Z) * list (Z * list Z) * list (Z * list Z) :=
  match k with
  | O => (c, p, q, rev xs, rev ys, rev zs)
  | S k =>
      match cp_refresh (at_first t rx) c with
      | Ok (c1, l) =>
          match pd_do (Refresh (ex_env t [said_at 0 l])) p, pd_do (Refresh (ex_env t [said_at 1 l])) q with
          | Ok (p1, o1), Ok (q1, o2) => trio k (t + 20) c1 p1 q1 (said o1 ++ said o2) ((t, rx) :: xs) ((t, said_at 0 l) :: ys) ((t, said_at 1 l) :: zs)
          | _, _ => (c, p, q, rev xs, rev ys, rev zs)
          end
      | _ => (c, p, q, rev xs, rev ys, rev zs)
      end
  end.
Definition ex_two : list pdinfo := [ex_cinfo false false false false None; ex_cinfo55].
Definition ex_two0 : ctx := xpanel (match cp_setup 4 ex_two with Ok (Some c) => Ok (c, tt) | _ => UB AppContract end).
Definition ex_trio := Eval vm_compute in trio 17 1000 ex_two0 ex_qp0 (match pd_setup ex_info55 4 with Some p => p | None => pd_zero end) [] [] [] [].
Definition ex_m0 : ctx := Eval vm_compute in fst (fst (fst (fst (fst ex_trio)))).
Definition ex_d0 : pd := Eval vm_compute in state_of (run (snd (fst (fst (fst (fst ex_trio))))) [SetCallback true]).
Definition ex_d1 : pd := Eval vm_compute in state_of (run (snd (fst (fst (fst ex_trio)))) [SetCallback true]).
Lemma ex_m0_runs : exists h, ctx_runs 4 ex_two h ex_m0 /\ Forall fixed h.
Proof.
  exists (rev (map (fun x => CxRefresh (at_first (fst x) (snd x))) (snd (fst (fst ex_trio))))). split.
  - assert (E : ex_m0 = xpanel (xrun_from ex_two (map (fun x => CxRefresh (at_first (fst x) (snd x))) (snd (fst (fst ex_trio)))))) by (vm_compute; reflexivity).
    rewrite E. apply xrun_from_runs; [repeat apply Forall_cons; try apply Forall_nil; exact I| |vm_compute; reflexivity].
    apply Forall_forall. intros x H. apply in_map_iff in H. destruct H as ((t & w) & <- & H). cbn [ctx_typed fst snd]. intros k.
    assert (BW : bytesb w = true).
    { assert (FB : forallb (fun x => bytesb (snd x)) (snd (fst (fst ex_trio))) = true) by (vm_compute; reflexivity). rewrite forallb_forall in FB. exact (FB _ H). }
    unfold at_first. apply ex_cenv_typed. destruct (Nat.eqb k 2); [cbn [forallb]; rewrite BW|]; reflexivity.
  - apply Forall_forall. intros x H. apply in_rev in H. apply in_map_iff in H. destruct H as (y & <- & _). exact I.
Qed.
Lemma ex_d0_reach : pd_reach ex_d0.
Proof.
  assert (E : ex_d0 = state_of (run_from (ex_info false None) 4 (map (fun x => Refresh (ex_env (fst x) [snd x])) (snd (fst ex_trio)) ++ [SetCallback true]))) by (vm_compute; reflexivity).
  rewrite E. apply run_reach; [exact (ex_info_typed false None I)| |vm_compute; reflexivity].
  apply Forall_app. split; [repeat apply Forall_cons; try apply Forall_nil; apply ex_env_typed; vm_compute; reflexivity|repeat (apply Forall_cons; [exact I|]); apply Forall_nil].
Qed.
Lemma ex_d1_reach : pd_reach ex_d1.
Proof.
  assert (E : ex_d1 = state_of (run_from ex_info55 4 (map (fun x => Refresh (ex_env (fst x) [snd x])) (snd ex_trio) ++ [SetCallback true]))) by (vm_compute; reflexivity).
  rewrite E. apply run_reach; [exact (ex_info_typed false None I)| |vm_compute; reflexivity].
  apply Forall_app. split; [repeat apply Forall_cons; try apply Forall_nil; apply ex_env_typed; vm_compute; reflexivity|repeat (apply Forall_cons; [exact I|]); apply Forall_nil].
Qed.
Definition ex_entry (i : nat) : pd := nth i (c_pds ex_m0) pd_zero.
Definition ex_site : list station := [mkStation (mkNet (ex_entry 0) ex_d0 1330 [] []) []; mkStation (mkNet (ex_entry 1) ex_d1 1330 [] []) []].
Lemma ex_entry_reach i : (i < 2)%nat -> cp_reach (ex_entry i).
Proof.
  intros L. destruct ex_m0_runs as (h & R & _). pose proof (ctx_entries _ _ _ _ R) as F. apply (proj1 (Forall_forall _ _) F). apply nth_In. exact L.
Qed.
Ltac ex_pair i := constructor; [constructor; [apply (ex_entry_reach i); lia|reflexivity|split; [constructor; vm_compute; repeat split; discriminate|left; vm_compute; repeat split; try discriminate; auto]|split; ex_quiet|vm_compute; split; discriminate]
  |first [exact ex_d0_reach|exact ex_d1_reach]|repeat split; reflexivity|vm_compute; auto|right; vm_compute; reflexivity|left; reflexivity|vm_compute; discriminate|reflexivity|apply Forall_nil|apply Forall_nil].
Lemma ex_panel_at_work : panel_at_work ex_m0 ex_site.
Proof.
  split; [destruct ex_m0_runs as (h & R); exists 4, ex_two, h; exact R|]. split; [exists 1; split; [discriminate|repeat apply Forall_cons; try apply Forall_nil; reflexivity]|]. split; [reflexivity|]. split.
  - apply Forall_cons; [|apply Forall_cons; [|apply Forall_nil]]; (split; [|reflexivity]); (split; [|split; reflexivity]).
    + ex_pair 0%nat.
    + ex_pair 1%nat.
  - vm_compute. repeat constructor; cbn [In]; intros H; repeat (destruct H as [H|H]; try discriminate); exact H.
Qed.

(* commands for both, then turns of the panel and refreshes of the devices *)
Inductive pbeat := PT (t : Z) (h : bool) | PD (x : beat).
Definition heldb (m : ctx) (i : nat) : bool :=
  match nth_error (c_pds m) i with
  | None => false
  | Some p => existsb (fun j => negb (Nat.eqb j i) && match nth_error (c_pds m) j with Some q => (chan_id q =? chan_id p) && waiting q | None => false end) (seq 0 (length (c_pds m)))
  end.
Lemma held_test m i : heldb m i = true <-> held m i.
Proof.
  unfold heldb, held. split.
  - destruct (nth_error (c_pds m) i) as [p|]; [|discriminate]. intros H. apply existsb_exists in H. destruct H as (j & _ & H). apply andb_true_iff in H. destruct H as [H1 H2].
    destruct (nth_error (c_pds m) j) as [q|] eqn:N; [|discriminate]. apply andb_true_iff in H2. destruct H2 as [H2 H3]. exists p, j. split; [reflexivity|]. split; [intros ->; rewrite Nat.eqb_refl in H1; discriminate|].
    exists q. split; [exact N|]. split; [apply Z.eqb_eq, H2|apply waiting_iff, H3].
  - intros (p & j & NP & NE & (q & NQ & C & W)). rewrite NP. apply existsb_exists. exists j. split; [apply in_seq; apply ne_lt in NQ; lia|]. apply Nat.eqb_neq in NE. rewrite NE, NQ. apply Z.eqb_eq in C. rewrite C. apply waiting_iff in W. rewrite W. reflexivity.
Qed.
Definition device_beat (x : beat) : bool := match x with BT _ (TU _ _) => false | _ => true end.
Fixpoint pband (xs : list pbeat) (m : ctx) (t : list station) : option (ctx * list station * list deed * list (nat * list out)) :=
  match xs with
  | [] => Some (m, t, [], [])
  | PT tm h :: xs =>
      let i := c_cur m in
      match nth_error t i with
      | None => None
      | Some s =>
          let e := tick_env tm h (to_c (st_net s)) in
          if heldb m i then
            match refresh_pd (ex_env tm []) m i with Ok (d, b, o) => pband xs (after b d i) t | _ => None end
          else if tick_ok (st_net s) (TU tm h) && (caughtb s || idleb s) then
            match refresh_pd e m i, act (AUpdate e) (st_net s) with
            | Ok (d, b, _), Ok (n, o) =>
                match pband xs (after b d i) (spread i (mkStation n (st_ear s)) (on_wire o) t) with
                | Some (m1, t1, l, tr) => Some (m1, t1, DAct i (AUpdate e) :: l, (i, o) :: tr)
                | None => None
                end
            | _, _ => None
            end
          else None
      end
  | PD x :: xs =>
      if device_beat x then
        if beat_ok t x then
          match beat_deed t x with
          | Some (d, i, s, Ok (n, o)) =>
              if one_startb (on_wire o) then
                match pband xs m (spread i (mkStation n (beat_ear x s)) (on_wire o) t) with Some (m2, t2, l, tr) => Some (m2, t2, d :: l, (i, o) :: tr) | None => None end
              else None
          | _ => None
          end
        else None
      else None
  end.

Lemma beat_deed_dev t x d i s r : device_beat x = true -> beat_deed t x = Some (d, i, s, r) -> match d with DAct _ (ARefresh _) | DAct _ (ANotify _) | DListen _ _ => True | _ => False end.
Proof.
  intros D H. destruct x as [j y|j tm k]; cbn [beat_deed] in H; destruct (nth_error t j) as [u|]; try discriminate; injection H as <- _ _ _; [|exact I]. destruct y; [discriminate|exact I].
Qed.
Lemma pband_runs m0 b : panel_at_work m0 b -> forall xs m t l tr m' t' l' tr', panel_run m0 b l m t tr -> pband xs m t = Some (m', t', l', tr') -> panel_run m0 b (l ++ l') m' t' (tr ++ tr').
Proof.
  intros W. induction xs as [|[tm h|x] xs IH]; intros m t l tr m' t' l' tr' R P; cbn [pband] in P.
  - injection P as <- <- <- <-. rewrite !app_nil_r. exact R.
  - destruct (nth_error t (c_cur m)) as [s|] eqn:NT; [|discriminate]. destruct (heldb m (c_cur m)) eqn:HB.
    + destruct (refresh_pd (ex_env tm []) m (c_cur m)) as [[[d b1] o]| |] eqn:RF; try discriminate.
      apply (IH _ _ l tr _ _ _ _ (pr_passed m0 b l m t tr (ex_env tm []) d b1 o R RF ltac:(apply ex_cenv_typed; reflexivity) (proj1 (held_test _ _) HB)) P).
    + destruct (tick_ok (st_net s) (TU tm h) && (caughtb s || idleb s)) eqn:TK; [|discriminate]. apply andb_true_iff in TK. destruct TK as [TK CK].
      set (e := tick_env tm h (to_c (st_net s))) in *. destruct (refresh_pd e m (c_cur m)) as [[[d b1] o1]| |] eqn:RF; try discriminate.
      destruct (act (AUpdate e) (st_net s)) as [[n o]| |] eqn:AC; try discriminate.
      destruct (pband xs (after b1 d (c_cur m)) (spread (c_cur m) (mkStation n (st_ear s)) (on_wire o) t)) as [[[[m1 t1] l1] tr1]|] eqn:P2; [|discriminate]. injection P as <- <- <- <-.
      pose proof (tick_allowed _ _ TK) as AL. change (tick_act (st_net s) (TU tm h)) with (AUpdate e) in AL.
      assert (ET : env_typed e) by (destruct AL as (_ & _ & [[_ H]|[N _]]); [apply H|apply N]).
      assert (CU : caught_up s \/ idle s) by (apply orb_true_iff in CK; destruct CK as [CK|CK]; [left; exact (caught_test _ CK)|right; exact (idle_test _ CK)]).
      assert (NH : ~ held m (c_cur m)) by (intros X; apply held_test in X; congruence).
      destruct (proj2 (C62_next_turn_partial m0 b l m t tr s e W R NT ET) NH CU AL) as (d2 & b2 & o2 & n2 & RF2 & AC2). rewrite RF in RF2. injection RF2 as <- <- <-. rewrite AC in AC2. injection AC2 as <- <-.
      pose proof (IH _ _ _ _ _ _ _ _ (pr_turn m0 b l m t tr e d b1 o s n R RF NH NT CU AL AC) P2) as Q. rewrite <- !app_assoc in Q. exact Q.
  - destruct (device_beat x) eqn:DB; [|discriminate]. destruct (beat_ok t x) eqn:BO; [|discriminate]. destruct (beat_deed t x) as [[[[d i] s] [[n o]| |]]|] eqn:BD; try discriminate.
    destruct (one_startb (on_wire o)) eqn:OS; [|discriminate].
    destruct (pband xs m (spread i (mkStation n (beat_ear x s)) (on_wire o) t)) as [[[[m2 t2] l2] tr2]|] eqn:P2; [|discriminate]. injection P as <- <- <- <-.
    destruct (beat_does t x d i s n o BO BD ltac:(rewrite OS; apply orb_true_r)) as [DO F1].
    pose proof (IH _ _ _ _ _ _ _ _ (pr_device m0 b l m t tr d _ i o R (beat_deed_dev t x d i s _ DB BD) DO F1) P2) as Q. rewrite <- !app_assoc in Q. exact Q.
Qed.
Definition ctx_of {A} (r : res (ctx * A)) : ctx := match r with Ok (c, _) => c | _ => mkCtx [] 0 0 [] end.
Definition ex_m1 : ctx := Eval vm_compute in ctx_of (ctx_do (CxOn 0 (Send (ex_env 1345 []) ex_led)) ex_m0).
Definition ex_m2 : ctx := Eval vm_compute in ctx_of (ctx_do (CxOn 1 (Send (ex_env 1345 []) ex_c1)) ex_m1).
Definition sent (i : nat) (k : cmd) (t : list station) : list station :=
  match nth_error t i with Some s => spread i (mkStation (res_net (act (ASend (ex_env 1345 []) k) (st_net s))) []) [] t | None => t end.
Definition ex_site1 : list station := Eval vm_compute in sent 0 ex_led ex_site.
Definition ex_site2 : list station := Eval vm_compute in sent 1 ex_c1 ex_site1.
Definition ex_sends : list deed := [DAct 0 (ASend (ex_env 1345 []) ex_led); DAct 1 (ASend (ex_env 1345 []) ex_c1)].
Lemma ex_sent : panel_run ex_m0 ex_site ex_sends ex_m2 ex_site2 [(0%nat, []); (1%nat, [])].
Proof.
  assert (AL : forall s k, phy_state (n_c s) = PIdle -> good_cmd (n_p s) k -> snd (fst (cp_send_command (ex_env 1345 []) (n_c s) k)) = true -> allowed s (ASend (ex_env 1345 []) k)).
  { intros s k _ G S. split; [apply ex_cenv_typed; reflexivity|]. split; assumption. }
  apply (pr_send ex_m0 ex_site [_] ex_m1 ex_site1 [_] 1 (ex_env 1345 []) ex_c1 ex_m2 [] (nth 1 ex_site1 (mkStation ex_net [])) (st_net (nth 1 ex_site2 (mkStation ex_net [])))); [|vm_compute; reflexivity|reflexivity| |vm_compute; reflexivity].
  - apply (pr_send ex_m0 ex_site [] ex_m0 ex_site [] 0 (ex_env 1345 []) ex_led ex_m1 [] (nth 0 ex_site (mkStation ex_net [])) (st_net (nth 0 ex_site1 (mkStation ex_net [])))); [apply pr_start|vm_compute; reflexivity|reflexivity| |vm_compute; reflexivity].
    apply AL; [reflexivity|split; [exact I|split; vm_compute; repeat split; discriminate]|vm_compute; reflexivity].
  - apply AL; [reflexivity|split; [exact I|split; vm_compute; repeat split; discriminate]|vm_compute; reflexivity].
Qed.
Definition ex_pbeats : list pbeat :=
  [PT 1400 false; PT 1400 false; PT 1401 false; PD (BL 0 1402 5); PD (BT 1 (TR 1403 true)); PT 1403 false; PD (BL 0 1404 60); PD (BL 0 1404 60); PT 1405 true; PD (BL 0 1406 60); PD (BL 0 1407 60); PD (BL 0 1408 0); PD (BL 0 1409 0);
   PT 1411 false; PD (BT 0 (TR 1412 true)); PT 1413 true]%nat.
Example C62_panel_example : panel_at_work ex_m0 ex_site /\
  exists l m t tr, panel_run ex_m0 ex_site l m t tr /\ length l = 18%nat /\ cmds_of (acts_at 0 l) = [ex_led] /\ cmds_of (acts_at 1 l) = [ex_c1] /\
    app_calls (seen_at 0 tr) = [ex_led] /\ app_calls (seen_at 1 tr) = [ex_c1] /\ map phy_state (c_pds m) = [PIdle; PIdle].
Proof.
  split; [exact ex_panel_at_work|].
  assert (X : match pband ex_pbeats ex_m2 ex_site2 with
    | Some (m, t, l, tr) => (length l, cmds_of (acts_at 0 l), cmds_of (acts_at 1 l), app_calls (seen_at 0 tr), app_calls (seen_at 1 tr), map phy_state (c_pds m)) = (16%nat, [], [], [ex_led], [ex_c1], [PIdle; PIdle])
    | None => False end) by (vm_compute; reflexivity).
  destruct (pband ex_pbeats ex_m2 ex_site2) as [[[[m t] l] tr]|] eqn:E; [|destruct X].
  pose proof (pband_runs ex_m0 ex_site ex_panel_at_work ex_pbeats ex_m2 ex_site2 ex_sends _ m t l tr ex_sent E) as R.
  exists (ex_sends ++ l), m, t, ([(0%nat, []); (1%nat, [])] ++ tr). split; [exact R|]. injection X as X1 X2 X3 X4 X5 X6. split; [cbn; rewrite X1; reflexivity|].
  split; [change (acts_at 0 (ex_sends ++ l)) with (ASend (ex_env 1345 []) ex_led :: acts_at 0 l); change (cmds_of (ASend (ex_env 1345 []) ex_led :: acts_at 0 l)) with (ex_led :: cmds_of (acts_at 0 l)); rewrite X2; reflexivity|].
  split; [change (acts_at 1 (ex_sends ++ l)) with (ASend (ex_env 1345 []) ex_c1 :: acts_at 1 l); change (cmds_of (ASend (ex_env 1345 []) ex_c1 :: acts_at 1 l)) with (ex_c1 :: cmds_of (acts_at 1 l)); rewrite X3; reflexivity|].
  split; [exact X4|]. split; [exact X5|exact X6].
Qed.
(* a refresh of this panel: two turns *)
Example C62_turns_example : match cp_refresh (fun _ => ex_env 1400 []) ex_m2 with Ok (d, tr) => map fst tr = [1; 0]%nat /\ map phy_state (c_pds d) = [PSend; PSend] | _ => False end.
Proof. vm_compute. split; reflexivity. Qed.
