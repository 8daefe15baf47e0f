(** C63: a device that has fallen silent is given up in time, whatever the panel was doing, and taken up
    again when it is back. *)
From Verif Require Import Base ListLemmas Crc SpecCrc Aes Rb RbProofs Types Sc Phy File Pd Cp CpCtx PdRun SpecRx SpecFrame SpecSec SpecSession SpecCmd SpecApp SpecPd SpecCp SpecCpRun SpecLink SpecTalk
  SpecTotal SpecCpTotal CpInv CpTotal CpTime Boot Boot2 Silent Heal RxProofs SpecHand SpecRun SpecBoot SpecSilent ExPd ExCp ExLink PropsPd2 PropsTalk PropsBoot.
Local Opaque aes_ecb_encrypt aes_cbc_encrypt aes_cbc_decrypt mac_of RB_SIZE osdp_mac enc1 osdp_encrypt encrypt_data.

(** C63.  The panel was used for any length of time in any way (without file transfers) and is at any point
    of any exchange.  From now on nothing is heard from the device.  If the panel is refreshed at least every
    g ms, then within the time for five exchanges, and five more for every byte that was received and not
    looked at and for every queued command, there is a moment at which the device is offline. *)
Theorem C63_gives_up : forall k n i h p g t es l q,
  cp_runs k n i h p -> Forall (fun x => careful_cp (ce_call x)) h -> Forall (by_then t) h -> 0 <= t -> 0 <= g ->
  cp_seg p l q -> refreshes l es -> paced g t es ->
  t + 5 * one_exchange g * (1 + zlen (pending p) + zlen (cmdq p)) < last_time t es -> was_offline l q.
Proof. exact gives_up_in_time. Qed.
Print Assumptions C63_gives_up.

(** C63.  The refreshes in the silence succeed, however many there are, when nothing was received and not
    looked at before. *)
Theorem C63_goes_on : forall k n i h p es,
  cp_runs k n i h p -> Forall (fun x => careful_cp (ce_call x)) h -> pending p = [] ->
  Forall env_typed es -> Forall (fun e => heard (e_rx e) = []) es ->
  exists l q, cp_seg p l q /\ refreshes l es.
Proof.
  intros k n i h p es R F PE T H. apply silence_runs; auto.
  - exists k, n, i, h. exact R.
  - exact (runs_steady _ _ _ _ _ R F).
  - pose proof (unread_le p) as L. pose proof (unread_pos p). rewrite PE in L. unfold zlen in L. cbn [length] in L. lia.
Qed.
Print Assumptions C63_goes_on.

(** C63.  Whenever the device is offline at the end of a silence, it is brought back as soon as the waiting
    time is over and the line works again: into a session in four exchanges, or without a key in two.
    No change of the key may have been under way when the silence began. *)
Theorem C63_heals : forall b k n i h c p es l q e,
  cp_runs k n i h c -> Forall (fun x => careful_cp (ce_call x)) h -> pair b c p -> ~ keying c ->
  Forall (fun e => heard (e_rx e) = []) es -> cp_seg c l q -> refreshes l es ->
  state q = SOffline -> env_typed e -> e_now e - tstamp q > wait_ms q ->
  moves (cp_do (Update e) q) (fun c0 =>
  (b = true -> same_key c p -> four_rounds c0 p (fun c4 p4 => at_work c4 p4 /\ in_step c4 p4)) /\
  (b = false -> no_key c p -> two_rounds c0 p (fun c2 p2 => at_work c2 p2 /\ sc_active (fl c2) = false))).
Proof.
  intros b k n i h c p es l q e R F P K H S RF SO T W. destruct (pair_kept b k n i h c p es l q R F P K H S RF) as (P2 & SK & NK).
  assert (PH : phy_state q = PIdle) by apply (offline_idle _ (cp_reach_inv _ (proj1 (mm_reach _ _ _ P2))) SO).
  pose proof (C59_recovers b q p e P2 SO PH T W) as (c0 & D & A1 & A2). exists c0. split; [exact D|]. split; auto.
Qed.
Print Assumptions C63_heals.

(* --- example --- *)
(* the panel ex_lc is in a session with the device ex_old; then nothing for 150 s *)
Definition ex_hush : list env := map (fun k => ex_env (3000 + 1000 * Z.of_nat k) []) (seq 0 150).
Definition ex_gone : pd := Eval vm_compute in state_of (crun ex_lc (map Update ex_hush)).
Definition ex_back := Eval vm_compute in duo 12 500000 (state_of (cp_do (Update (ex_env 500000 [])) ex_gone)) ex_old [] [] [].
Lemma chist_calls cs : forall p h, is_ok (crun p cs) = true -> map ce_call (chist p cs h) = rev cs ++ map ce_call h.
Proof.
  induction cs as [|c t IH]; intros p h H; [reflexivity|]. simpl in *. destruct (cp_do c p) as [[q o]| |]; try discriminate H. simpl in H.
  rewrite IH by (destruct (crun q t) as [[z y]| |]; [reflexivity|discriminate H..]). cbn [map ce_call]. rewrite <- app_assoc. reflexivity.
Qed.
Lemma crun_seg cs : forall p, Forall cp_call_typed cs -> is_ok (crun p cs) = true -> exists l, cp_seg p l (state_of (crun p cs)) /\ map ce_call l = cs.
Proof.
  induction cs as [|c t IH]; intros p T H; [exists []; split; [constructor|reflexivity]|]. apply Forall_cons_iff in T. destruct T as (T1 & T2). simpl in *.
  destruct (cp_do c p) as [[q o]| |] eqn:D; try discriminate H. simpl in H |- *.
  assert (OK : is_ok (crun q t) = true) by (destruct (crun q t) as [[z y]| |]; [reflexivity|discriminate H..]).
  destruct (IH q T2 OK) as (l & S & E). exists (mkCe p c o :: l). split; [|simpl; rewrite E; reflexivity].
  destruct (crun q t) as [[z y]| |]; [|discriminate OK..]. exact (cseg_cons p c q o l z T1 D S).
Qed.
Lemma chist_from_calls i n cs : is_ok (crun_from i n cs) = true -> map ce_call (chist_from i n cs) = rev cs.
Proof. unfold chist_from, crun_from. destruct (new_pd 0 n i) as [p|]; [|discriminate]. intros H. rewrite (chist_calls _ _ _ H). apply app_nil_r. Qed.
Lemma ex_lc_ok : is_ok (crun_from ex_cinfo_sc 4 ex_lc_calls) = true.
Proof. vm_compute. reflexivity. Qed.
Lemma ex_lc_is : ex_lc = state_of (crun_from ex_cinfo_sc 4 ex_lc_calls).
Proof. vm_compute. reflexivity. Qed.
Lemma ex_lc_typed : Forall cp_call_typed ex_lc_calls.
Proof. ex_ccalls. Qed.
Lemma ex_lc_runs : cp_runs 0 4 ex_cinfo_sc (chist_from ex_cinfo_sc 4 ex_lc_calls) ex_lc.
Proof. rewrite ex_lc_is. apply crun_from_runs; [apply ex_cinfo_typed; exact ex_key_ok|exact ex_lc_typed|exact ex_lc_ok]. Qed.
Lemma ex_paced n : forall k, paced 1000 (2000 + 1000 * Z.of_nat k) (map (fun k => ex_env (3000 + 1000 * Z.of_nat k) []) (seq k n)).
Proof.
  induction n as [|n IH]; intros k; [exact I|]. cbn [seq map paced]. split; [cbn [e_now ex_env]; lia|]. split; [reflexivity|].
  specialize (IH (S k)). replace (2000 + 1000 * Z.of_nat (S k)) with (e_now (ex_env (3000 + 1000 * Z.of_nat k) [])) in IH by (cbn [e_now ex_env]; lia). exact IH.
Qed.
Lemma ex_lc_pair : pair true ex_lc ex_old.
Proof.
  pose proof ex_dead_pair as M. constructor.
  - split; [exact ex_lc_reach|exact (proj2 (mm_reach _ _ _ M))].
  - split; [reflexivity|exact I].
  - split; [reflexivity|vm_compute; split; [discriminate|reflexivity]].
  - split; [ex_quiet|exact (proj2 (mm_quiet _ _ _ M))].
  - reflexivity.
  - vm_compute; split; discriminate.
  - exact (mm_rx _ _ _ M).
  - reflexivity.
  - constructor.
  - exact (mm_events _ _ _ M).
Qed.
Lemma ex_hush_typed : Forall env_typed ex_hush.
Proof. unfold ex_hush. apply Forall_map, Forall_forall. intros k _. apply ex_cenv_typed. reflexivity. Qed.
Lemma ex_hush_silent : Forall (fun e => heard (e_rx e) = []) ex_hush.
Proof. unfold ex_hush. apply Forall_map, Forall_forall. intros k _. reflexivity. Qed.
Example C63_example :
  exists h l, cp_runs 0 4 ex_cinfo_sc h ex_lc /\ Forall (fun x => careful_cp (ce_call x)) h /\ Forall (by_then 2000) h /\
  cp_seg ex_lc l ex_gone /\ refreshes l ex_hush /\ paced 1000 2000 ex_hush /\ Forall env_typed ex_hush /\ Forall (fun e => heard (e_rx e) = []) ex_hush /\
  2000 + 5 * one_exchange 1000 * (1 + zlen (pending ex_lc) + zlen (cmdq ex_lc)) < last_time 2000 ex_hush /\
  state ex_lc = SOnline /\ sc_active (fl ex_lc) = true /\ pending ex_lc = [] /\ pair true ex_lc ex_old /\ ~ keying ex_lc /\ same_key ex_lc ex_old /\
  state ex_gone = SOffline /\ 500000 - tstamp ex_gone > wait_ms ex_gone /\
  (let '(c, p, _, _) := ex_back in state c = SOnline /\ sc_active (fl c) = true /\ sc_active (fl p) = true /\ s_enc (sc p) = s_enc (sc c)).
Proof.
  pose proof ex_lc_runs as R. pose proof (chist_from_calls _ _ _ ex_lc_ok) as EC.
  assert (TY : Forall cp_call_typed (map Update ex_hush)) by (apply Forall_map; exact ex_hush_typed).
  assert (OK : is_ok (crun ex_lc (map Update ex_hush)) = true) by (vm_compute; reflexivity).
  destruct (crun_seg _ ex_lc TY OK) as (l & S & EL).
  assert (EG : state_of (crun ex_lc (map Update ex_hush)) = ex_gone) by (vm_compute; reflexivity). rewrite EG in S.
  exists (chist_from ex_cinfo_sc 4 ex_lc_calls), l. split; [exact R|].
  split. { apply (proj1 (Forall_map ce_call careful_cp _)). rewrite EC. apply Forall_rev. unfold ex_lc_calls. apply Forall_map, Forall_forall. intros x _. exact I. }
  split. { apply (proj1 (Forall_map ce_call (fun c => by_then 2000 (mkCe pd_zero c [])) _)). rewrite EC. apply Forall_rev. repeat constructor; vm_compute; discriminate. }
  split; [exact S|]. split; [exact EL|]. split; [exact (ex_paced 150 0)|]. split; [exact ex_hush_typed|]. split; [exact ex_hush_silent|].
  split; [vm_compute; reflexivity|]. split; [reflexivity|]. split; [reflexivity|]. split; [reflexivity|].
  split; [exact ex_lc_pair|].
  split. { intros (_ & X & _). vm_compute in X. discriminate X. }
  split; [vm_compute; repeat split|]. split; [reflexivity|]. split; [vm_compute; reflexivity|]. vm_compute. repeat split.
Qed.
