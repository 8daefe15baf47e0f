(** C59: a panel and a device that can work together find each other: from setup, after a restart of
    either, and after the panel gave the device up. *)
From Verif Require Import Base ListLemmas Crc SpecCrc Aes Rb RbProofs Types Sc Phy File Pd Cp CpCtx PdRun SpecRx SpecFrame SpecSec SpecSession SpecCmd SpecApp SpecPd SpecCp SpecCpRun SpecLink SpecTalk
  CpInv Boot Boot2 SpecHand SpecRun SpecBoot ExPd ExCp ExLink PropsPd2 PropsTalk.
Local Opaque aes_ecb_encrypt aes_cbc_encrypt aes_cbc_decrypt mac_of RB_SIZE osdp_mac enc1 osdp_encrypt encrypt_data.

(** C59.  The panel is about to ask for identification and both hold the same key; the device may be in
    a session from before, or wait for any sequence number.  Four exchanges later both are in the same
    session and ready for commands and events (C58 tells what happens then).  What waited in the queues
    still waits there. *)
Theorem C59_comes_online : forall c p, may_meet true c p -> same_key c p ->
  four_rounds c p (fun c4 p4 => at_work c4 p4 /\ in_step c4 p4).
Proof. exact comes_secure. Qed.
Print Assumptions C59_comes_online.

(** C59.  Without a key two exchanges are enough. *)
Theorem C59_comes_online_plain : forall c p, may_meet false c p -> no_key c p ->
  two_rounds c p (fun c2 p2 => at_work c2 p2 /\ sc_active (fl c2) = false).
Proof. exact comes_plain. Qed.
Print Assumptions C59_comes_online_plain.

(** C59.  A panel that gave the device up tries again with the first refresh after its waiting time, and
    then everything goes as from the start. *)
Theorem C59_recovers : forall b c p e, pair b c p -> state c = SOffline -> phy_state c = PIdle -> env_typed e -> e_now e - tstamp c > wait_ms c ->
  moves (cp_do (Update e) c) (fun c0 =>
  (b = true -> same_key c p -> four_rounds c0 p (fun c4 p4 => at_work c4 p4 /\ in_step c4 p4)) /\
  (b = false -> no_key c p -> two_rounds c0 p (fun c2 p2 => at_work c2 p2 /\ sc_active (fl c2) = false))).
Proof.
  intros b c p e P St Ph ET T. destruct (off_meets b e c p P St Ph ET T) as (q & D & M & K1 & K2). exists q. split; [exact D|].
  split; intros -> K; [exact (comes_secure q p M (K1 K))|exact (comes_plain q p M (K2 K))].
Qed.
Print Assumptions C59_recovers.

(** C59.  A panel entry and a device that were just set up with the same address and the same key, or both
    without one, and a device with a callback: they come online with the first exchanges. *)
Theorem C59_from_setup : forall k n ic c n' ip p,
  cp_info_typed ic -> new_pd k n ic = Some c -> info_typed ip -> pd_setup ip n' = Some p ->
  i_address ip = i_address ic -> 0 <= i_address ic < 127 -> i_scbk ip = i_scbk ic ->
  let d := pd_set_command_callback true p in
  match i_scbk ic with
  | Some _ => four_rounds c d (fun c4 p4 => at_work c4 p4 /\ in_step c4 p4)
  | None => two_rounds c d (fun c2 p2 => at_work c2 p2 /\ sc_active (fl c2) = false)
  end.
Proof.
  intros k n ic c n' ip p TC NC TP NP EA AD EK d. destruct (i_scbk ic) as [key|] eqn:K.
  - exact (comes_secure c d (fresh_pair true k n ic c n' ip p TC NC TP NP EA AD) (fresh_key k n ic c n' ip p key NC TP NP K EK)).
  - exact (comes_plain c d (fresh_pair false k n ic c n' ip p TC NC TP NP EA AD) (fresh_nokey k n ic c n' ip p NC NP K EK)).
Qed.
Print Assumptions C59_from_setup.

(* --- examples --- *)
(* the device is in the session of before and has a card to report; a panel just set up, and one that nobody
   answered for a while *)
Definition ex_old_card : event := ECard 0 0 0 16 [171; 205].
Definition ex_old : pd := Eval vm_compute in set_evq [ex_old_card] (set_has_cb true ex_lp).
Definition ex_dead_calls : list cp_call := map (fun k => Update (ex_env (1000 + 1000 * Z.of_nat k) [])) (seq 0 30).
Definition ex_dead : pd := Eval vm_compute in state_of (crun_from ex_cinfo_sc 4 ex_dead_calls).
Lemma ex_old_reach : pd_reach ex_old.
Proof.
  destruct ex_lp_reach as (i & n & h & R).
  assert (R1 : pd_runs i n (mkEntry ex_lp (SetCallback true) [] :: h) (set_has_cb true ex_lp)) by (apply (runs_step i n h ex_lp (SetCallback true)); [exact R|exact I|reflexivity]).
  do 3 eexists. eapply (runs_step i n (mkEntry ex_lp (SetCallback true) [] :: h) (set_has_cb true ex_lp) (Notify ex_old_card) ex_old []); [exact R1|split; [apply bytesb_ok; reflexivity|vm_compute; discriminate]|vm_compute; reflexivity].
Qed.
Lemma ex_dead_reach : cp_reach ex_dead.
Proof.
  assert (E : ex_dead = state_of (crun_from ex_cinfo_sc 4 ex_dead_calls)) by (vm_compute; reflexivity).
  rewrite E. ex_crun.
Qed.
Lemma ex_old_pair c : cp_reach c -> quiet c -> c = ex_c0 \/ c = ex_dead -> pair true c ex_old.
Proof.
  intros R Q D. assert (QO : quiet ex_old) by ex_quiet.
  constructor.
  - split; [exact R|exact ex_old_reach].
  - destruct D; subst c; split; try reflexivity; exact I.
  - destruct D; subst c; (split; [reflexivity|vm_compute; split; [discriminate|reflexivity]]).
  - split; [exact Q|split; [exact QO|reflexivity]].
  - destruct D; subst c; reflexivity.
  - destruct D; subst c; vm_compute; split; discriminate.
  - split; [reflexivity|vm_compute; discriminate].
  - reflexivity.
  - destruct D; subst c; constructor.
  - constructor; [|constructor]. split; [|split; [|exact I]].
    + cbn [ev_in_range ex_old_card]. unfold byte. repeat split; try lia; try reflexivity. apply bytesb_ok; reflexivity.
    + eexists. split; [reflexivity|]. repeat split; try (vm_compute; discriminate). apply bytesb_ok. reflexivity.
Qed.
(* twelve refreshes of both, once the waiting time is over *)
Definition ex_again := Eval vm_compute in duo 12 400000 (state_of (cp_do (Update (ex_env 400000 [])) ex_dead)) ex_old [] [] [].
Lemma ex_same c : c = ex_c0 \/ c = ex_dead -> same_key c ex_old.
Proof. intros [->| ->]; vm_compute; repeat split. Qed.
Lemma ex_new_meets : may_meet true ex_c0 ex_old.
Proof. split; [vm_compute; auto|apply ex_old_pair; [exact ex_c0_reach|ex_quiet|auto]]. Qed.
Lemma ex_dead_pair : pair true ex_dead ex_old.
Proof. apply ex_old_pair; [exact ex_dead_reach|ex_quiet|auto]. Qed.
Example C59_example :
  may_meet true ex_c0 ex_old /\ same_key ex_c0 ex_old /\ sc_active (fl ex_old) = true /\ seqn ex_old = 1 /\
  pair true ex_dead ex_old /\ state ex_dead = SOffline /\ phy_state ex_dead = PIdle /\ same_key ex_dead ex_old /\ wait_ms ex_dead = 300000 /\
  (let '(c, p, _, _) := ex_again in
   state c = SOnline /\ sc_active (fl c) = true /\ sc_active (fl p) = true /\ s_enc (sc p) = s_enc (sc c) /\ evq p = [ex_old_card]).
Proof.
  split; [exact ex_new_meets|]. split; [apply ex_same; auto|]. split; [reflexivity|]. split; [vm_compute; reflexivity|].
  split; [exact ex_dead_pair|]. split; [reflexivity|]. split; [reflexivity|]. split; [apply ex_same; auto|]. split; [reflexivity|].
  vm_compute. repeat split.
Qed.
Example C59_setup_example :
  cp_info_typed (ex_cinfo false false false false None) /\ info_typed (ex_info false None) /\ i_address (ex_info false None) = i_address (ex_cinfo false false false false None) /\
  new_pd 0 4 (ex_cinfo false false false false None) <> None /\ pd_setup (ex_info false None) 4 <> None /\
  cp_info_typed ex_cinfo_sc /\ info_typed (ex_info true (Some ex_key)) /\ i_address (ex_info true (Some ex_key)) = i_address ex_cinfo_sc /\ i_scbk (ex_info true (Some ex_key)) = i_scbk ex_cinfo_sc.
Proof.
  split; [apply ex_cinfo_typed; exact I|]. split; [apply ex_info_typed; exact I|]. split; [reflexivity|]. split; [vm_compute; discriminate|]. split; [vm_compute; discriminate|].
  split; [apply ex_cinfo_typed; exact ex_key_ok|]. split; [apply ex_info_typed; exact ex_key_ok|]. split; reflexivity.
Qed.
