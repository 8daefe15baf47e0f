(** The notifications about a device, its secure channel and its commands are true. *)
From Verif Require Import Base ListLemmas Crc SpecCrc Aes Rb RbProofs Types Sc Phy File Pd Cp CpCtx SpecRx SpecFrame SpecSec PdReply PdStep
  SpecPd SpecCp SpecCpRun CpStep CpInv CpSum CpHist CpTime CpReply ExPd ExCp SpecOnce SpecTell TellCp.
From Coq Require Import ZifyBool ZifyNat.
Local Opaque RB_SIZE.

(** C70.  Notifications are enabled and a callback is registered.  After every call the latest notification about the
    secure channel (or, if there was none yet, the assumption that it is inactive) tells whether it is active. *)
Theorem C70_channel : forall k n i h p, cp_runs k n i h p -> Forall listens h ->
  believes 0 (in_time (fun en => sc_told (ce_out en)) h) = if sc_active (fl p) then 1 else 0.
Proof. intros k n i h p R L. exact (believed_runs k n i h p R L). Qed.
Print Assumptions C70_channel.

(** C70.  A refresh notifies about the state of the device exactly if the device came online or went offline in it, and
    then once.  The value is right when the device came online; when it went offline it is wrong (C70_offline_refuted). *)
Theorem C70_device_partial : forall e p q o, cp_reach p -> env_typed e -> listens (mkCe p (Update e) o) ->
  cp_do (Update e) p = Ok (q, o) -> pd_told o = if came_or_went p q then [1] else [].
Proof.
  intros e p q o R T (L1 & L2) D. destruct (cp_do_update _ _ _ _ D) as (rc & U). pose proof R as (k & n & i & h & RR).
  exact (proj2 (upd_told e p q rc o (cp_reach_inv _ R) (runs_no_notif k n i h p RR) T L1 L2 U)).
Qed.
Print Assumptions C70_device_partial.

Definition ex_tb (en : cp_entry) : bool := match ce_call en with Update e => e_evcb e && notif (fl (ce_pd en)) | _ => true end.
Lemma ex_tl h : forallb ex_tb h = true -> Forall listens h.
Proof.
  intros H. apply Forall_forall. intros en IN. rewrite forallb_forall in H. specialize (H en IN). unfold ex_tb, listens in *.
  destruct (ce_call en); auto.
Qed.

(* a session is opened; a packet that is not what it should be ends it and takes the device offline *)
Definition ex_tell : list cp_call := ex_sc_calls ++ exch 1400 [reply 1 [64]].
Example C70_example :
  let h := chist_from ex_cinfo_sc 4 ex_tell in let p := state_of (crun_from ex_cinfo_sc 4 ex_tell) in
  cp_runs 0 4 ex_cinfo_sc h p /\ Forall listens h /\ state p = SOffline /\
  in_time (fun en => sc_told (ce_out en)) h = [1; 0] /\ in_time (fun en => pd_told (ce_out en)) h = [1; 1].
Proof.
  cbv zeta. split; [|split; [apply ex_tl; vm_compute; reflexivity|vm_compute; auto]].
  apply crun_from_runs; [apply ex_cinfo_typed; exact ex_key_ok|ex_ccalls|vm_compute; reflexivity].
Qed.

(** A device that went offline is notified as online: documented is 0 for offline. *)
Theorem C70_offline_refuted : exists p cs q o,
  cp_reach p /\ Forall cp_call_typed cs /\ crun p cs = Ok (q, o) /\
  state p = SOnline /\ state q = SOffline /\ pd_told o = [1].
Proof.
  exists (ex_cp false true), (exch 1200 [reply 2 [65; 1]]). do 2 eexists. split; [apply ex_cp_reach|]. split; [ex_ccalls|].
  split; [apply (ok_eq (crun _ _)); vm_compute; reflexivity|]. vm_compute. auto.
Qed.
Print Assumptions C70_offline_refuted.

(* outcomes told for commands of kind a; documented: 0 success, -1 failure *)
Definition outcomes (a : Z) (o : list out) : list Z := flat_map (fun x => match x with OEv _ (ENotif 0 b v) => if b =? a then [v] else [] | _ => [] end) o.
Definition ex_told_cmd (r : list Z) : list cp_call := Send (ex_env 1150 []) (CBuzzer 0 2 1 1 1) :: exch 1200 [reply 2 r].
Ltac ex_told_typed := repeat apply Forall_cons; try apply Forall_nil; first [apply ex_cenv_typed; vm_compute; reflexivity|split; [apply ex_cenv_typed; vm_compute; reflexivity|exact I]].
(** A command that the device refuses is notified with the value documented for success, and one that it carries out
    with a value that is not documented. *)
Theorem C70_outcome_refuted : exists p q o q2 o2,
  cp_reach p /\ Forall cp_call_typed (ex_told_cmd [65; 1]) /\ crun p (ex_told_cmd [65; 1]) = Ok (q, o) /\ outcomes 3 o = [0] /\
  Forall cp_call_typed (ex_told_cmd [64]) /\ crun p (ex_told_cmd [64]) = Ok (q2, o2) /\ outcomes 3 o2 = [1].
Proof.
  exists (ex_cp false true). do 4 eexists. split; [apply ex_cp_reach|]. split; [ex_told_typed|].
  split; [apply (ok_eq (crun _ _)); vm_compute; reflexivity|]. split; [vm_compute; reflexivity|]. split; [ex_told_typed|].
  split; [apply (ok_eq (crun _ _)); vm_compute; reflexivity|vm_compute; reflexivity].
Qed.
Print Assumptions C70_outcome_refuted.
