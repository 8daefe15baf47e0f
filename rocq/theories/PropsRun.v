(** Property theorem C58: panel and device on a line that loses nothing. *)
From Verif Require Import Base ListLemmas Crc SpecCrc Aes Rb RbProofs Types Sc Phy File Pd Cp CpCtx PdRun SpecRx SpecFrame SpecSec SpecSession SpecCmd SpecApp SpecPd SpecCp SpecCpRun SpecLink SpecHand SpecTalk
  SpecLost PdHist2 CpInv CpSum CpHist Talk Talk2 Talk3 Talk4 Talk5 Lost Lost2 ExPd ExCp ExLink PropsTalk PropsFile SpecHand SpecRun Run1 Run2 Run3.
From Coq Require Import ZifyBool ZifyNat.
Local Opaque RB_SIZE aes_ecb_encrypt enc1 osdp_mac.

(** C58.  On a line that loses nothing, whatever the order in which panel and device are refreshed and
    whenever commands and events are handed in: the commands that the application of the device was
    asked to execute, then at most one that is under way, then those that wait in the queue, are the
    commands that were handed in, in their order, none missing, none twice.  Likewise the events that
    the application of the panel was told. *)
Theorem C58_exact : forall s l t o, begins s -> lossless s l t o ->
  exists commands_under_way events_under_way,
    app_calls o ++ commands_under_way ++ map upto (cmdq (n_c t)) = map upto (cmdq (n_c s) ++ cmds_of l) /\
    told_events o ++ events_under_way ++ map upto_ev (evq (n_p t)) = map upto_ev (evq (n_p s) ++ events_of l) /\
    (length commands_under_way + length events_under_way <= 1)%nat /\
    (phy_state (n_c t) = PIdle -> commands_under_way = [] /\ events_under_way = []).
Proof.
  intros s l t o B R. destruct (run_all s l t o B R) as (fc & fe & SD & P & _ & C & E). exists fc, fe. split; [exact C|]. split; [exact E|].
  destruct P as [P|j P|j P|r P]; try destruct j as [k|]; try destruct r as [ev|]; cbn [job_list rep_list length]; (split; [lia|]); intros X; try (split; reflexivity); destruct P as [P _]; rewrite X in P; discriminate.
Qed.
Print Assumptions C58_exact.

(** The connection holds: the panel stays online, in the session if there was one, and whenever it is
    between two exchanges both sides agree as they did at the beginning. *)
Theorem C58_holds : forall s l t o, begins s -> lossless s l t o ->
  state (n_c t) = SOnline /\ sc_active (fl (n_c t)) = sc_active (fl (n_c s)) /\ (phy_state (n_c t) = PIdle -> begins t).
Proof.
  intros s l t o B R. destruct (run_all s l t o B R) as (fc & fe & SD & P & A & _ & _). split; [apply SD|]. split; [exact A|]. intros X.
  assert (P0 : ph0 t) by (destruct P as [P|j P|j P|r P]; [exact P|..]; destruct P as [P _]; rewrite X in P; discriminate). clear P. destruct P0 as (ID & LN & T1 & T2). destruct SD.
  assert (SA : sc_active (fl (n_c t)) = sc_active (fl (n_p t))) by (destruct LN as [_ [(U & V & _)|Y]]; [congruence|destruct (is_act _ _ Y); congruence]).
  split; [|split; assumption]. split; try assumption; try (rewrite <- SA; assumption); try (apply sd_reach); try (apply sd_size).
  - split; try assumption; [apply sd_reach|]. destruct sd_size as [Z1 Z2]. split; [lia|exact Z2].
  - split; [assumption|]. split; assumption.
Qed.
Print Assumptions C58_holds.

(** No refresh, no submission ends in undefined behaviour or an abort on the way. *)
Theorem C58_goes_on : forall s l t o a, begins s -> lossless s l t o -> allowed t a -> exists t1 o1, act a t = Ok (t1, o1).
Proof.
  intros s l t o a B R A. destruct (run_all s l t o B R) as (fc & fe & SD & P & _).
  destruct (run_step a t fc fe SD P A) as (t1 & o1 & _ & _ & [X _] & _). exists t1, o1. exact X.
Qed.
Print Assumptions C58_goes_on.

(** How many exchanges it takes: one per command, then one per event.  After n of them the application
    of the device got the first n commands, and once there are none left that of the panel got one event
    per exchange. *)
Theorem C58_served : forall s n t o, begins s -> served s n t o ->
  let k := (n - length (cmdq (n_c s)))%nat in
  app_calls o = map upto (firstn n (cmdq (n_c s))) /\ told_events o = map upto_ev (firstn k (evq (n_p s))) /\
  length (cmdq (n_c t)) = (length (cmdq (n_c s)) - n)%nat /\ length (evq (n_p t)) = (length (evq (n_p s)) - k)%nat.
Proof.
  intros s n t o B R k. destruct (served_all s n t o B R) as (_ & _ & C & CT & X). cbv zeta in X. destruct X as (E & ET). rewrite C, E. fold k in E, ET |- *.
  split; [apply firstn_map|]. split; [apply firstn_map|].
  apply (f_equal (@length cmd)) in CT. apply (f_equal (@length event)) in ET. rewrite skipn_length, !map_length in CT, ET. split; assumption.
Qed.
Print Assumptions C58_served.

(* --- a run, executed --- *)
Inductive tick := TU (t : Z) (h : bool) | TR (t : Z) (h : bool).
Definition tick_env (t : Z) (h : bool) (w : list Z) : env := ex_env t (if h then [w] else []).
Definition tick_act (s : net) (x : tick) : action := match x with TU t h => AUpdate (tick_env t h (to_c s)) | TR t h => ARefresh (tick_env t h (to_p s)) end.
Definition is_nil (w : list Z) : bool := match w with [] => true | _ => false end.
Definition arrives (w : list Z) : bool := negb (is_nil w) && bytesb w && (length w <=? 64)%nat.
Definition tick_ok (s : net) (x : tick) : bool :=
  match x with
  | TU t true => arrives (to_c s)
  | TU t false => is_nil (to_p s) && is_nil (to_c s) || (t - n_at s <=? 200)
  | TR t h => (negb (sc_active (fl (n_p s))) || (t - sc_tstamp (n_p s) <=? 8000)) && (negb h || arrives (to_p s))
  end.
Fixpoint play (xs : list tick) (s : net) : option (net * list action * list out) :=
  match xs with
  | [] => Some (s, [], [])
  | x :: xs =>
      if tick_ok s x then
        match act (tick_act s x) s with
        | Ok (s1, o1) => match play xs s1 with Some (t, l, o) => Some (t, tick_act s x :: l, o1 ++ o) | None => None end
        | _ => None
        end
      else None
  end.
Lemma arrives_hears t w : arrives w = true -> w <> [] /\ hears (ex_env t [w]) w.
Proof.
  intros H. unfold arrives in H. apply andb_true_iff in H. destruct H as [H L]. apply andb_true_iff in H. destruct H as [N B]. apply Nat.leb_le in L.
  split; [intros ->; discriminate|]. split; [apply ex_cenv_typed; cbn [forallb]; rewrite B; reflexivity|]. split; [apply ex_env_typed; cbn [forallb]; rewrite B; reflexivity|].
  assert (HH : heard [w] = w). { cbn [heard]. rewrite firstn_all2 by exact L. destruct (Nat.eqb _ _); [apply app_nil_r|reflexivity]. }
  split. { split; [constructor; [exact (bytesb_ok w B)|constructor]|]. unfold fits_ring. change (e_rx (ex_env t [w])) with [w]. rewrite HH. change RB_SIZE with 512%nat. lia. }
  split; [change (256 <= 1000); lia|]. change (e_rx (ex_env t [w])) with [w]. rewrite HH. exists [], []. split; [cbn [app]; rewrite app_nil_r; reflexivity|]. split; [intros []|left; reflexivity].
Qed.
Lemma tick_allowed s x : tick_ok s x = true -> allowed s (tick_act s x).
Proof.
  destruct x as [t h|t h]; cbn [tick_ok tick_act allowed].
  - intros H. split; [reflexivity|]. split; [change (256 <= 1000); lia|]. destruct h.
    + left. exact (arrives_hears t _ H).
    + right. split; [split; [apply ex_cenv_typed; reflexivity|reflexivity]|]. intros X. change (e_now (tick_env t false (to_c s))) with t.
      apply orb_true_iff in H. destruct H as [H|H]; [|apply Z.leb_le, H]. apply andb_true_iff in H. destruct H as [H1 H2]. destruct (to_p s), (to_c s); try discriminate. destruct X as [X|X]; destruct (X eq_refl).
  - intros H. apply andb_true_iff in H. destruct H as [H1 H2]. split; [|split; [reflexivity|]].
    + intros A. change (e_now (tick_env t h (to_p s))) with t. rewrite A in H1. cbn [negb orb] in H1. apply Z.leb_le, H1.
    + destruct h; [left; exact (arrives_hears t _ H2)|right; split; [apply ex_env_typed; reflexivity|reflexivity]].
Qed.
Lemma play_lossless s xs : forall t l o t' l' o', lossless s l t o -> play xs t = Some (t', l', o') -> lossless s (l ++ l') t' (o ++ o').
Proof.
  induction xs as [|x xs IH]; intros t l o t' l' o' R P; cbn [play] in P.
  - injection P as <- <- <-. rewrite !app_nil_r. exact R.
  - destruct (tick_ok t x) eqn:TK; [|discriminate]. destruct (act (tick_act t x) t) as [[s1 o1]| |] eqn:A; try discriminate. destruct (play xs s1) as [[[t2 l2] o2]|] eqn:P2; [|discriminate].
    injection P as <- <- <-. pose proof (IH _ _ _ _ _ _ (ll_snoc s l t o (tick_act t x) s1 o1 R (tick_allowed t x TK) A) P2) as Q. rewrite <- !app_assoc in Q. exact Q.
Qed.

Definition play_net (d : net) (x : option (net * list action * list out)) : net := match x with Some (t, _, _) => t | None => d end.
Definition play_acts (x : option (net * list action * list out)) : list action := match x with Some (_, l, _) => l | None => [] end.
Definition play_outs (x : option (net * list action * list out)) : list out := match x with Some (_, _, o) => o | None => [] end.
(* the pair of ExLink, in session; the device has a callback *)
Definition ex_net : net := mkNet ex_lc ex_tp 1330 [] [].
Lemma ex_at_work : at_work ex_lc ex_tp.
Proof.
  constructor.
  - constructor.
    + exact ex_lc_reach.
    + reflexivity.
    + assert (X : in_step ex_lc ex_tp) by (destruct (ex_step_ok ex_tp ex_in_step eq_refl eq_refl eq_refl eq_refl) as [[A1 A2 A3 A4 A5] B C D E F G]; constructor; [constructor|..]; assumption).
      split; [exact (is_ends _ _ X)|right; exact X].
    + split; ex_quiet.
    + vm_compute. split; discriminate.
  - exact ex_tp_reach.
  - repeat split; reflexivity.
  - vm_compute. auto.
  - left. reflexivity.
  - right. reflexivity.
  - vm_compute. discriminate.
  - reflexivity.
  - apply Forall_nil.
  - apply Forall_nil.
Qed.
Lemma ex_begins : begins ex_net.
Proof. split; [exact ex_at_work|split; reflexivity]. Qed.

(* a command and two events are handed in; refreshes in changing order, with pauses; a further command in between *)
Definition ex_c1 : cmd := COutput 1 5 4000.
Definition ex_in1 : list action := [ASend (ex_env 1330 []) ex_led; ANotify ex_ev_card; ANotify ex_ev_in].
Definition res_net (x : res (net * list out)) : net := match x with Ok (s, _) => s | _ => ex_net end.
Definition ex_n1 : net := res_net (act (ASend (ex_env 1330 []) ex_led) ex_net).
Definition ex_n2 : net := res_net (act (ANotify ex_ev_card) ex_n1).
Definition ex_n3 : net := res_net (act (ANotify ex_ev_in) ex_n2).
Definition ex_ticks1 : list tick := [TR 1331 false; TU 1332 false; TR 1333 false; TU 1334 false; TU 1335 false; TR 1336 true; TR 1337 false; TU 1338 false; TU 1339 true; TU 1341 false].
Definition ex_ticks2 : list tick :=
  [TU 1350 false; TU 1351 false; TR 1360 true; TU 1400 true; TU 1500 false; TU 1501 false; TU 1502 false; TR 1503 true; TU 1504 true; TU 1505 false; TU 1600 false; TU 1600 false; TR 1610 true; TU 1620 true].
Definition ex_p1 := Eval vm_compute in play_net ex_net (play ex_ticks1 ex_n3).
Definition ex_n4 : net := Eval vm_compute in res_net (act (ASend (ex_env 1345 []) ex_c1) ex_p1).
Definition ex_l1 : list action := (play_acts (play ex_ticks1 ex_n3)).
Definition ex_o1 : list out := (play_outs (play ex_ticks1 ex_n3)).
Definition ex_l2 : list action := (play_acts (play ex_ticks2 ex_n4)).
Definition ex_o2 : list out := (play_outs (play ex_ticks2 ex_n4)).
Definition ex_end : net := play_net ex_net (play ex_ticks2 ex_n4).
Lemma ex_handed_in : lossless ex_net ex_in1 ex_n3 [].
Proof.
  apply (ll_snoc ex_net [_; _] ex_n2 [] _ ex_n3 []); [apply (ll_snoc ex_net [_] ex_n1 [] _ ex_n2 []); [apply (ll_snoc ex_net [] ex_net [] _ ex_n1 [] (ll_nil _))|..]|..].
  - split; [apply ex_cenv_typed; reflexivity|]. split; [|vm_compute; reflexivity]. split; [exact I|]. split; vm_compute; repeat split; discriminate.
  - vm_compute. reflexivity.
  - split; [split; [apply bytesb_ok; reflexivity|vm_compute; discriminate]|]. split; [|vm_compute; reflexivity].
    split; [split; [split; vm_compute; [discriminate|reflexivity]|split; [left; reflexivity|split; [split; vm_compute; discriminate|split; [vm_compute; discriminate|apply bytesb_ok; reflexivity]]]]|].
    split; [exact I|]. eexists. split; [vm_compute; reflexivity|split; [apply bytesb_ok; reflexivity|vm_compute; repeat split; discriminate]].
  - vm_compute. reflexivity.
  - split; [exact I|]. split; [|vm_compute; reflexivity]. split; [vm_compute; repeat split; discriminate|].
    split; [split; [intros X; discriminate X|intros _; vm_compute; reflexivity]|]. eexists. split; [vm_compute; reflexivity|split; [apply bytesb_ok; reflexivity|vm_compute; repeat split; discriminate]].
  - vm_compute. reflexivity.
Qed.
Lemma ex_run_lossless : lossless ex_net (((ex_in1 ++ ex_l1) ++ [ASend (ex_env 1345 []) ex_c1]) ++ ex_l2) ex_end ((([] ++ ex_o1) ++ []) ++ ex_o2).
Proof.
  apply (play_lossless ex_net ex_ticks2 ex_n4 ((ex_in1 ++ ex_l1) ++ [ASend (ex_env 1345 []) ex_c1]) (([] ++ ex_o1) ++ []) ex_end ex_l2 ex_o2); [|vm_compute; reflexivity].
  apply (ll_snoc ex_net (ex_in1 ++ ex_l1) ex_p1 ([] ++ ex_o1) (ASend (ex_env 1345 []) ex_c1) ex_n4 []).
  - apply (play_lossless ex_net ex_ticks1 ex_n3 ex_in1 [] ex_p1 ex_l1 ex_o1); [exact ex_handed_in|vm_compute; reflexivity].
  - split; [apply ex_cenv_typed; reflexivity|]. split; [|vm_compute; reflexivity]. split; [exact I|]. split; vm_compute; repeat split; discriminate.
  - vm_compute. reflexivity.
Qed.
Example C58_example :
  begins ex_net /\ (exists l t o, lossless ex_net l t o /\ length l = 28%nat /\ cmds_of l = [ex_led; ex_c1] /\ events_of l = [ex_ev_card; ex_ev_in] /\ sc_active (fl (n_c t)) = true /\ phy_state (n_c t) = PIdle /\
    app_calls o = [ex_led; ex_c1] /\ told_events o = [ex_ev_card; ex_ev_in] /\ cmdq (n_c t) = [] /\ evq (n_p t) = []).
Proof.
  split; [exact ex_begins|]. eexists _, _, _. split; [exact ex_run_lossless|]. vm_compute. repeat split; reflexivity.
Qed.

(* three exchanges: the command, the card, the inputs *)
Definition plays (xs : list tick) (s : net) : net := play_net s (play xs s).
Lemma ticks_served s n t o a b c d t4 l o4 : served s n t o -> cmdq (n_c t) <> [] \/ a - tstamp (n_c t) > 50 -> play [TU a false; TU b false; TR c true; TU d true] t = Some (t4, l, o4) -> served s (S n) t4 (o ++ o4).
Proof.
  intros R DU P. cbn [play] in P.
  destruct (tick_ok t (TU a false)) eqn:K1; [|discriminate]. destruct (act (tick_act t (TU a false)) t) as [[t1 o1]| |] eqn:A1; try discriminate.
  destruct (tick_ok t1 (TU b false)) eqn:K2; [|discriminate]. destruct (act (tick_act t1 (TU b false)) t1) as [[t2 o2]| |] eqn:A2; try discriminate.
  destruct (tick_ok t2 (TR c true)) eqn:K3; [|discriminate]. destruct (act (tick_act t2 (TR c true)) t2) as [[t3 o3]| |] eqn:A3; try discriminate.
  destruct (tick_ok t3 (TU d true)) eqn:K4; [|discriminate]. destruct (act (tick_act t3 (TU d true)) t3) as [[t5 o5]| |] eqn:A4; try discriminate.
  injection P as <- _ <-. rewrite app_nil_r.
  pose proof (tick_allowed _ _ K1) as L1. pose proof (tick_allowed _ _ K2) as L2. pose proof (tick_allowed _ _ K3) as L3. pose proof (tick_allowed _ _ K4) as L4.
  apply (sv_snoc s n t o (tick_env a false (to_c t)) (tick_env b false (to_c t1)) (tick_env c true (to_p t2)) (tick_env d true (to_c t3)) t1 t2 t3 t5 o1 o2 o3 o5 R L1 DU A1 L2 A2 L3); [|exact A3|exact L4| |exact A4].
  - cbn [tick_ok] in K3. apply andb_true_iff in K3. exact (proj2 (arrives_hears c _ (proj2 K3))).
  - exact (proj2 (arrives_hears d _ K4)).
Qed.
Definition ex_x1 : list tick := [TU 1400 false; TU 1410 false; TR 1420 true; TU 1430 true].
Definition ex_x2 : list tick := [TU 1500 false; TU 1510 false; TR 1520 true; TU 1530 true].
Definition ex_x3 : list tick := [TU 1600 false; TU 1610 false; TR 1620 true; TU 1630 true].
Definition ex_s1 : net := Eval vm_compute in plays ex_x1 ex_n3.
Definition ex_s2 : net := Eval vm_compute in plays ex_x2 ex_s1.
Definition ex_s3 : net := Eval vm_compute in plays ex_x3 ex_s2.
Example C58_served_example : begins ex_n3 /\ cmdq (n_c ex_n3) = [ex_led] /\ evq (n_p ex_n3) = [ex_ev_card; ex_ev_in] /\
  exists o, served ex_n3 3 ex_s3 o /\ app_calls o = [ex_led] /\ told_events o = [ex_ev_card; ex_ev_in] /\ cmdq (n_c ex_s3) = [] /\ evq (n_p ex_s3) = [].
Proof.
  split; [apply (C58_holds ex_net ex_in1 ex_n3 [] ex_begins ex_handed_in); vm_compute; reflexivity|]. split; [vm_compute; reflexivity|]. split; [vm_compute; reflexivity|].
  exists ((([] ++ play_outs (play ex_x1 ex_n3)) ++ play_outs (play ex_x2 ex_s1)) ++ play_outs (play ex_x3 ex_s2)). split.
  - apply (ticks_served ex_n3 2 ex_s2 (([] ++ play_outs (play ex_x1 ex_n3)) ++ play_outs (play ex_x2 ex_s1)) 1600 1610 1620 1630 ex_s3 (play_acts (play ex_x3 ex_s2)) (play_outs (play ex_x3 ex_s2))); [|right; vm_compute; reflexivity|vm_compute; reflexivity].
    apply (ticks_served ex_n3 1 ex_s1 ([] ++ play_outs (play ex_x1 ex_n3)) 1500 1510 1520 1530 ex_s2 (play_acts (play ex_x2 ex_s1)) (play_outs (play ex_x2 ex_s1))); [|right; vm_compute; reflexivity|vm_compute; reflexivity].
    apply (ticks_served ex_n3 0 ex_n3 [] 1400 1410 1420 1430 ex_s1 (play_acts (play ex_x1 ex_n3)) (play_outs (play ex_x1 ex_n3)) (sv_nil _)); [left; vm_compute; discriminate|vm_compute; reflexivity].
  - vm_compute. repeat split; reflexivity.
Qed.
