(** Properties of a whole control panel: C36, C37, C40. *)
From Verif Require Import Base ListLemmas SpecCrc Aes Rb RbProofs Types Sc Phy File Pd Cp CpCtx SpecRx SpecFrame SpecSec RxProofs SpecPd SpecCp SpecCpRun SpecCtx PdRx ExPd CpFacts CpFwd CpInv ExCp CtxProofs.
Local Opaque RB_SIZE.

(** * Example panels *)
(* device [a] on channel [ch], no key *)
Definition ex_dev (a ch : Z) : pdinfo := mkInfo 9600 a (ex_cflags false false false false) (mkId 0 0 0 0 0) [] None ch.
Lemma ex_dev_typed a ch : cp_info_typed (ex_dev a ch).
Proof. exact I. Qed.
Fixpoint xrun (c : ctx) (xs : list ctx_call) : res (ctx * list (list (nat * list out))) :=
  match xs with
  | [] => Ok (c, [])
  | x :: t => bind (ctx_do x c) (fun y => bind (xrun (fst y) t) (fun z => Ok (fst z, snd y :: snd z)))
  end.
Definition xrun_from (l : list pdinfo) (xs : list ctx_call) : res (ctx * list (list (nat * list out))) :=
  bind (cp_setup 4 l) (fun c => match c with Some c => xrun c xs | None => UB AppContract end).
Definition xpanel {A} (r : res (ctx * A)) : ctx := match r with Ok (c, _) => c | _ => mkCtx [] 0 0 [] end.
Definition xturns (r : res (ctx * list (list (nat * list out)))) : list (list nat) := match r with Ok (_, l) => map (map fst) l | _ => [] end.
Lemma xrun_runs l xs : forall h c d o, ctx_runs 4 l h c -> Forall ctx_typed xs -> xrun c xs = Ok (d, o) -> ctx_runs 4 l (rev xs ++ h) d.
Proof.
  induction xs as [|x t IH]; intros h c d o R T H; simpl in H; [injection H as <- <-; exact R|].
  destruct (ctx_do x c) as [[c1 o1]| |] eqn:D; cbn [bind fst snd] in H; try discriminate.
  destruct (xrun c1 t) as [[c2 o2]| |] eqn:E; cbn [bind fst snd] in H; try discriminate. injection H as <- <-. inversion T; subst.
  simpl. rewrite <- app_assoc. apply (IH (x :: h) c1 c2 o2); auto. exact (xruns_step 4 l h c x c1 o1 R H1 D).
Qed.
Lemma xrun_from_runs l xs : Forall cp_info_typed l -> Forall ctx_typed xs -> is_ok (xrun_from l xs) = true ->
  ctx_runs 4 l (rev xs) (xpanel (xrun_from l xs)).
Proof.
  intros TI T H. unfold xrun_from in *. destruct (cp_setup 4 l) as [[c|]| |] eqn:S; cbn [bind] in *; try discriminate.
  destruct (xrun c xs) as [[d o]| |] eqn:E; try discriminate. cbn [xpanel]. rewrite <- (app_nil_r (rev xs)). exact (xrun_runs l xs [] c d o (xruns_start 4 l c TI S) T E).
Qed.
(* a refresh in which nothing arrives *)
Definition ex_refresh (t : Z) : ctx_call := CxRefresh (fun _ => ex_env t []).
Lemma ex_refresh_typed t : ctx_typed (ex_refresh t).
Proof. intros k. apply ex_cenv_typed. reflexivity. Qed.

(** C36.  Of the PDs on one channel (not 0) at most one waits for a reply: after every run, and at
    every moment inside a refresh, whatever arrives and whatever the application asks for.  No PD is
    added after set-up. *)
Theorem C36_alone_partial : forall blocks l h c es m ch i j,
  ctx_runs blocks l h c -> Forall fixed h -> (forall k, env_typed (es k)) -> sweep es (length (c_pds c)) c m ->
  ch <> 0 -> waits m i ch -> waits m j ch -> i = j.
Proof.
  intros blocks l h c es m ch i j R F T S C0 W1 W2. apply (inv_alone m i j ch); auto. exact (sweep_inv es _ c m T (ctx_inv _ _ _ _ R F) S).
Qed.
Print Assumptions C36_alone_partial.

(* three devices, the first and the last on channel 7: the first two wait, the last is passed over and
   waits only after the first has been answered *)
Definition ex_three : list pdinfo := [ex_dev 101 7; ex_dev 102 8; ex_dev 103 7].
Definition ex_three_h : list ctx_call := [ex_refresh 1000; ex_refresh 1000].
Example C36_example :
  let c := xpanel (xrun_from ex_three ex_three_h) in
  ctx_runs 4 ex_three (rev ex_three_h) c /\ Forall fixed (rev ex_three_h) /\
  map phy_state (c_pds c) = [PReplyWait; PReplyWait; PSend] /\
  map phy_state (c_pds (xpanel (ctx_do (CxRefresh (fun k => if Nat.eqb k 3 then ex_env 1010 [reply 0 ex_pdid] else ex_env 1010 [])) c))) =
    [PIdle; PReplyWait; PReplyWait].
Proof.
  split; [|split; [repeat constructor|split; vm_compute; reflexivity]]. apply xrun_from_runs; [repeat constructor| |vm_compute; reflexivity].
  repeat apply Forall_cons; try apply Forall_nil; apply ex_refresh_typed.
Qed.

(** C36 is false after osdp_cp_add_pd: the added PD gets the number of its position in the call, which
    another PD already has; it takes that PD's lock for its own and transmits on the busy channel. *)
Theorem C36_add_refuted : exists l h c,
  ctx_runs 4 l h c /\ waits c 0 7 /\ waits c 2 7.
Proof.
  exists [ex_dev 101 7; ex_dev 102 8]. set (xs := [ex_refresh 1000; ex_refresh 1000; CxAdd 4 [ex_dev 103 7]; ex_refresh 1010; ex_refresh 1010]).
  exists (rev xs), (xpanel (xrun_from [ex_dev 101 7; ex_dev 102 8] xs)). split.
  - apply xrun_from_runs; [repeat constructor| |vm_compute; reflexivity]. unfold xs.
    repeat apply Forall_cons; try apply Forall_nil; try apply ex_refresh_typed. all: exact I.
  - unfold waits. split.
    + eexists. split; [vm_compute; reflexivity|]. split; vm_compute; reflexivity.
    + eexists. split; [vm_compute; reflexivity|]. split; vm_compute; reflexivity.
Qed.
Print Assumptions C36_add_refuted.

(** C37.  A refresh gives every PD exactly one turn, in cyclic order from where the last one left
    off; or it stops at a PD that waits for a reply, the next one starts with that PD, and all PDs
    share one channel.  The request it waits for went out in this turn, or earlier and at most 200 ms
    ago.  No PD is added after set-up. *)
Theorem C37_round_partial : forall blocks l h c es d t,
  ctx_runs blocks l h c -> Forall fixed h -> l <> [] -> (forall k, env_typed (es k)) -> cp_refresh es c = Ok (d, t) ->
  let n := length l in
  length (c_pds c) = n /\ length (c_pds d) = n /\ (c_cur c < n)%nat /\
  ((map fst t = turns n (c_cur c) n /\ c_cur d = c_cur c) \/
   exists m p0 p, (m < n)%nat /\ map fst t = turns n (c_cur c) (S m) /\ c_cur d = Nat.modulo (c_cur c + m) n /\
     nth_error (c_pds c) (c_cur d) = Some p0 /\ nth_error (c_pds d) (c_cur d) = Some p /\ phy_state p = PReplyWait /\
     (forall x y, In x l -> In y l -> i_chan x = i_chan y) /\
     ((phy_state p0 = PReplyWait /\ phy_tstamp p = phy_tstamp p0 /\ e_now (es (n - m)%nat) <= phy_tstamp p + 200) \/
      (phy_state p0 <> PReplyWait /\ phy_tstamp p = e_now (es (n - m)%nat)))).
Proof.
  intros blocks l h c es d t R F NE T H n. destruct (run_fixed _ _ _ _ R F NE) as (V & NC & LN). destruct (refresh_went es c d t V T H) as (V1 & L1 & _ & G).
  assert (N0 : c_pds c <> []) by (intros X; rewrite X in LN; destruct l; [congruence|discriminate]).
  assert (LC : (c_cur c < n)%nat) by (destruct (cv_cur _ V); [contradiction|unfold n; rewrite <- LN; assumption]).
  split; [exact LN|]. split; [unfold n; congruence|]. split; [exact LC|]. specialize (G N0). unfold went, stopped in G. rewrite LN in G. fold n in G.
  destruct G as [(G1 & G2) | (m & p0 & p & G1 & G2 & G3 & G4 & G5 & G6 & G7 & G8 & G9)].
  - left. split; [exact G1|]. rewrite G2. replace (c_cur c + n)%nat with (c_cur c + 1 * n)%nat by lia. rewrite Nat.mod_add by lia. apply Nat.mod_small. exact LC.
  - right. exists m, p0, p. do 6 (split; [assumption|]). split; [|exact G9]. intros x y X Y. apply (nodup_one (map i_chan l)); [congruence| |]; apply in_map; assumption.
Qed.
Print Assumptions C37_round_partial.

(* two channels: every PD, twice; one channel: stopped at the first PD until it is answered *)
Example C37_example :
  xturns (xrun_from ex_three ex_three_h) = [[0; 1; 2]; [0; 1; 2]]%nat /\
  xturns (xrun_from [ex_dev 101 7; ex_dev 102 7] [ex_refresh 1000; ex_refresh 1000; ex_refresh 1100; ex_refresh 1201]) = [[0; 1]; [0]; [0]; [0; 1]]%nat.
Proof. split; vm_compute; reflexivity. Qed.

(** C37.  In its turn a PD is updated, or another PD on its channel is waiting for a reply. *)
Theorem C37_turn : forall blocks l h c es m e d b o,
  ctx_runs blocks l h c -> Forall fixed h -> (forall k, env_typed (es k)) -> sweep es (length (c_pds c)) c m ->
  env_typed e -> refresh_pd e m (c_cur m) = Ok (d, b, o) ->
  (exists p q, nth_error (c_pds m) (c_cur m) = Some p /\ cp_do (Update e) p = Ok (q, o) /\ c_pds d = upd (c_cur m) q (c_pds m)) \/
  (exists p j, nth_error (c_pds m) (c_cur m) = Some p /\ j <> c_cur m /\ chan_id p <> 0 /\ waits m j (chan_id p) /\ d = m /\ o = []).
Proof.
  intros blocks l h c es m e d b o R F T S TE H. pose proof (sweep_inv es _ c m T (ctx_inv _ _ _ _ R F) S) as V.
  destruct (refresh_turn _ _ _ _ _ _ V TE H) as ([p j N J C W E | p q rc o1 N U E1 E2 E3] & _).
  - right. exists p, j. auto 7.
  - left. exists p, q. split; [exact N|]. split; [|exact E1]. simpl. rewrite U. reflexivity.
Qed.
Print Assumptions C37_turn.

(** C37.  The PD at which refreshes stop does not hold up the others for more than 200 ms after its
    request: once it waits, refreshes end early only up to that time. *)
Theorem C37_stall : forall blocks l h c i p xs d,
  ctx_runs blocks l h c -> Forall fixed h -> c_cur c = i -> nth_error (c_pds c) i = Some p -> phy_state p = PReplyWait ->
  stall i c xs d -> Forall (fun es => e_now (es (length (c_pds c))) <= phy_tstamp p + 200) xs.
Proof. intros blocks l h c i p xs d R F C N W S. exact (stall_short i xs c d p (ctx_inv _ _ _ _ R F) N W C S). Qed.
Print Assumptions C37_stall.

Example C37_stall_example :
  let c := xpanel (xrun_from [ex_dev 101 7; ex_dev 102 7] [ex_refresh 1000; ex_refresh 1000]) in
  c_cur c = 0%nat /\ map phy_state (c_pds c) = [PReplyWait; PSend] /\ map phy_tstamp (firstn 1 (c_pds c)) = [1000] /\
  exists d, stall 0 c [(fun _ => ex_env 1200 [])] d.
Proof.
  split; [|split; [|split]]; try (vm_compute; reflexivity). eexists. eapply stall_refresh; [apply ex_refresh_typed|vm_compute; reflexivity| |constructor].
  vm_compute. split; [reflexivity|discriminate].
Qed.

(** C37 is false after osdp_cp_add_pd: the added PD gets the number of its position in the call, not
    in the table, so that it is followed by itself; the PD that was there before never has a turn
    again, however often the panel is refreshed and whatever arrives. *)
Theorem C37_add_refuted : exists l h c,
  ctx_runs 4 l h c /\ length (c_pds c) = 2%nat /\ forall xs d, refreshed c xs d -> ~ In 0%nat xs.
Proof.
  exists [ex_dev 101 7]. set (xs := [CxAdd 4 [ex_dev 102 8]; ex_refresh 1000]).
  exists (rev xs), (xpanel (xrun_from [ex_dev 101 7] xs)). assert (R : ctx_runs 4 [ex_dev 101 7] (rev xs) (xpanel (xrun_from [ex_dev 101 7] xs))).
  { apply xrun_from_runs; [repeat constructor| |vm_compute; reflexivity]. unfold xs.
    repeat apply Forall_cons; try apply Forall_nil; try apply ex_refresh_typed. all: exact I. }
  split; [exact R|]. split; [vm_compute; reflexivity|]. intros ys d RF. apply (stuck_forever _ _ _ RF (ctx_entries _ _ _ _ R)); try (vm_compute; reflexivity).
  intros p X. vm_compute in X. injection X as <-. reflexivity.
Qed.
Print Assumptions C37_add_refuted.

(** C40.  Bit i mod 8 of byte i/8 of the status mask says whether PD i is online, every other bit of
    the bytes written is 0, and one byte is written for each 8 PDs begun. *)
Theorem C40_status : forall blocks l h c now m,
  ctx_runs blocks l h c -> get_status_mask now (c_pds c) = Ok m ->
  length m = Nat.div (length (c_pds c) + 7) 8 /\ bytes m /\
  forall i, Z.testbit (nth (Nat.div i 8) m 0) (Z.of_nat (Nat.modulo i 8)) = true <->
    exists p, nth_error (c_pds c) i = Some p /\ state p = SOnline.
Proof.
  intros blocks l h c now m R H. pose proof (ctx_entries _ _ _ _ R) as F. unfold get_status_mask in H. destruct (c_pds c) as [|p t] eqn:E; [discriminate|].
  assert (PM : pd_mode (fl p) = false) by (inversion F; subst; apply (ci_b _ (cp_reach_inv _ H2))). rewrite PM in H. rewrite <- E in *.
  assert (L0 : (0 < length (c_pds c))%nat) by (rewrite E; simpl; lia).
  assert (HM : m = mask_bytes (S (length (c_pds c))) (map (fun p => st_eqb (state p) SOnline) (c_pds c))) by congruence. rewrite HM. clear H HM.
  destruct (mask_bytes_spec (S (length (c_pds c))) (map (fun p => st_eqb (state p) SOnline) (c_pds c))) as (A & B & C); rewrite ?map_length in *; try lia.
  split; [rewrite A; assert (1 <= Nat.div (length (c_pds c) + 7) 8)%nat by (apply Nat.div_le_lower_bound; lia); lia|]. split; [exact B|].
  intros i. rewrite C. split.
  - intros X. destruct (nth_error (c_pds c) i) as [q|] eqn:N.
    + exists q. split; auto. rewrite (nth_indep _ false (st_eqb (state pd_zero) SOnline)), (map_nth (fun p => st_eqb (state p) SOnline)), (nth_error_nth _ _ _ N) in X;
        [destruct (state q); try discriminate; reflexivity|rewrite map_length; exact (ne_lt _ _ _ N)].
    + apply nth_error_None in N. rewrite nth_overflow in X by (rewrite map_length; exact N). discriminate.
  - intros (q & N & S). rewrite (nth_indep _ false (st_eqb (state pd_zero) SOnline)), (map_nth (fun p => st_eqb (state p) SOnline)), (nth_error_nth _ _ _ N), S;
      [reflexivity|rewrite map_length; exact (ne_lt _ _ _ N)].
Qed.
Print Assumptions C40_status.

(** C40.  The same for the secure-channel mask: the bit says whether PD i has an active secure channel
    that does not use the default key. *)
Theorem C40_secure : forall l m, get_sc_status_mask l = m ->
  length m = Nat.max 1 (Nat.div (length l + 7) 8) /\ bytes m /\
  forall i, Z.testbit (nth (Nat.div i 8) m 0) (Z.of_nat (Nat.modulo i 8)) = true <->
    exists p, nth_error l i = Some p /\ sc_active (fl p) = true /\ use_scbkd (fl p) = false.
Proof.
  intros l m <-. unfold get_sc_status_mask. set (f := fun p : pd => sc_active (fl p) && negb (use_scbkd (fl p))).
  destruct (mask_bytes_spec (S (length l)) (map f l)) as (A & B & C); rewrite ?map_length in *; try lia.
  split; [exact A|]. split; [exact B|].
  intros i. rewrite C. split.
  - intros X. destruct (nth_error l i) as [q|] eqn:N.
    + exists q. split; auto. rewrite (nth_indep _ false (f pd_zero)), (map_nth f), (nth_error_nth _ _ _ N) in X; [|rewrite map_length; exact (ne_lt _ _ _ N)].
      apply andb_true_iff in X as (X1 & X2). destruct (use_scbkd (fl q)); [discriminate|auto].
    + apply nth_error_None in N. rewrite nth_overflow in X by (rewrite map_length; exact N). discriminate.
  - intros (q & N & S1 & S2). rewrite (nth_indep _ false (f pd_zero)), (map_nth f), (nth_error_nth _ _ _ N); [unfold f; rewrite S1, S2; reflexivity|rewrite map_length; exact (ne_lt _ _ _ N)].
Qed.
Print Assumptions C40_secure.

(* ten devices, the second and the tenth online (the ninth is not) *)
Example C40_example :
  let up := fun k => match k with 9%nat | 1%nat => [reply 0 ex_pdid] | _ => [] end in
  let up2 := fun k => match k with 9%nat | 1%nat => [reply 1 ex_pdcap_plain] | _ => [] end in
  let r := xrun_from (map (ex_dev 101) [1; 2; 3; 4; 5; 6; 7; 8; 9; 10])
    [ex_refresh 1000; ex_refresh 1000; CxRefresh (fun k => ex_env 1010 (up k)); ex_refresh 1100; ex_refresh 1100; CxRefresh (fun k => ex_env 1110 (up2 k))] in
  get_status_mask 0 (c_pds (xpanel r)) = Ok [2; 2] /\ get_sc_status_mask [ex_cp_sc; ex_cp false false; ex_cp_sc] = [5].
Proof. vm_compute. auto. Qed.
