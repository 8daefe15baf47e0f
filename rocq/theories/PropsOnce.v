(** Each command taken from the queue is reported once. *)
From Verif Require Import Base ListLemmas Crc SpecCrc Aes Rb RbProofs Types Sc Phy File Pd Cp CpCtx SpecRx SpecFrame SpecSec PdReply PdStep
  SpecPd SpecCp SpecCpRun CpStep CpInv CpSum CpHist CpTime CpReply ExPd ExCp SpecOnce OnceCp.
From Coq Require Import ZifyBool ZifyNat.
Local Opaque RB_SIZE.

(** C69.  Notifications are enabled and a callback is registered.  The kinds of the commands reported as completed,
    followed by that of the command under way, are the kinds of the commands taken from the queue, in the same order and
    each once.  What is missing: manufacturer specific commands (not_mfg), commands the entry cannot transmit (kind_of),
    and the report about a KEYSET that replaces the default key (own_keyset). *)
Theorem C69_once_partial : forall k n i h p, cp_runs k n i h p -> Forall listens h ->
  not_mfg (in_time kinds h) = not_mfg (in_time reports h ++ under_way p).
Proof. intros k n i h p R L. exact (proj2 (once_runs k n i h p R L)). Qed.
Print Assumptions C69_once_partial.

(** C69.  Manufacturer specific commands included, no command is reported twice, out of order, or without having been
    taken from the queue. *)
Theorem C69_order_partial : forall k n i h p, cp_runs k n i h p -> Forall listens h ->
  left_out (in_time reports h ++ under_way p) (in_time kinds h).
Proof. intros k n i h p R L. exact (proj1 (once_runs k n i h p R L)). Qed.
Print Assumptions C69_order_partial.

Definition ex_oi : pdinfo := ex_cinfo false false false true None.
Definition ex_send (t : Z) (c : cmd) : cp_call := Send (ex_env t []) c.
Definition ex_listensb (en : cp_entry) : bool := match ce_call en with Update e => e_evcb e && notif (fl (ce_pd en)) | _ => true end.
Lemma ex_listens h : forallb ex_listensb h = true -> Forall listens h.
Proof.
  intros H. apply Forall_forall. intros en IN. rewrite forallb_forall in H. specialize (H en IN). unfold ex_listensb, listens in *.
  destruct (ce_call en); auto.
Qed.
(* three commands: two are over, the third is under way *)
Definition ex_once : list cp_call :=
  ex_up 0 ++ [ex_send 1150 (CBuzzer 0 2 1 1 1); ex_send 1150 (COutput 0 1 5); ex_send 1150 (CStatus 1 0 0)] ++
  exch 1200 [reply 2 [64]] ++ exch 1300 [reply 3 [64]] ++ [Update (ex_env 1400 [])].
Example C69_example : exists p,
  let h := chist_from ex_oi 4 ex_once in
  cp_runs 0 4 ex_oi h p /\ Forall listens h /\ in_time reports h = [3; 1] /\ under_way p = [9] /\ in_time kinds h = [3; 1; 9].
Proof.
  exists (state_of (crun_from ex_oi 4 ex_once)). cbv zeta. split; [|split; [apply ex_listens; vm_compute; reflexivity|vm_compute; auto]].
  apply crun_from_runs; [apply ex_cinfo_typed; exact I| |vm_compute; reflexivity].
  repeat apply Forall_cons; try apply Forall_nil; try exact I; first [apply ex_cenv_typed; vm_compute; reflexivity|split; [apply ex_cenv_typed; vm_compute; reflexivity|exact I]].
Qed.
(* a refused command is reported too *)
Example C69_example_refused :
  in_time reports (chist_from ex_oi 4 (ex_up 0 ++ [ex_send 1150 (CBuzzer 0 2 1 1 1)] ++ exch 1200 [reply 2 [65; 1]])) = [3].
Proof. vm_compute. reflexivity. Qed.

(** A manufacturer specific command that the device answers with data is never reported. *)
Theorem C69_mfg_refuted : exists h p,
  cp_runs 0 4 ex_oi h p /\ Forall listens h /\ state p = SOnline /\ phy_state p = PIdle /\ cmdq p = [] /\
  in_time kinds h = [7] /\ in_time reports h = [].
Proof.
  set (cs := ex_up 0 ++ [ex_send 1150 (CMfg 3 5 2 [1; 2])] ++ exch 1200 [reply 2 [144; 3; 0; 0; 5; 9]]).
  exists (chist_from ex_oi 4 cs), (state_of (crun_from ex_oi 4 cs)). split; [|split; [apply ex_listens; vm_compute; reflexivity|vm_compute; auto]].
  apply crun_from_runs; [apply ex_cinfo_typed; exact I| |vm_compute; reflexivity].
  repeat apply Forall_cons; try apply Forall_nil; try exact I; first [apply ex_cenv_typed; vm_compute; reflexivity|split; [apply ex_cenv_typed; vm_compute; reflexivity|apply bytesb_ok; reflexivity]].
Qed.
Print Assumptions C69_mfg_refuted.

(** A status query of an unknown kind is accepted, taken from the queue, never transmitted, and never reported. *)
Theorem C69_unsent_refuted : exists h p,
  cp_runs 0 4 ex_oi h p /\ Forall listens h /\ state p = SOnline /\ phy_state p = PIdle /\ cmdq p = [] /\
  in_time accepted_cmd h = [CStatus 4 0 0] /\ in_time taken_cmd h = [CStatus 4 0 0] /\ in_time reports h = [].
Proof.
  set (cs := ex_up 0 ++ [ex_send 1150 (CStatus 4 0 0); Update (ex_env 1200 [])]).
  exists (chist_from ex_oi 4 cs), (state_of (crun_from ex_oi 4 cs)). split; [|split; [apply ex_listens; vm_compute; reflexivity|]].
  - apply crun_from_runs; [apply ex_cinfo_typed; exact I| |vm_compute; reflexivity].
    repeat apply Forall_cons; try apply Forall_nil; try exact I; first [apply ex_cenv_typed; vm_compute; reflexivity|split; [apply ex_cenv_typed; vm_compute; reflexivity|exact I]].
  - vm_compute. repeat split; reflexivity.
Qed.
Print Assumptions C69_unsent_refuted.

(** The application submits nothing, and is told that a KEYSET failed: the one by which the panel replaces the default
    key. *)
Theorem C69_unasked_refuted : exists i h p,
  cp_runs 0 4 i h p /\ Forall listens h /\ in_time accepted_cmd h = [] /\
  flat_map report_of (in_time ce_out h) = [5].
Proof.
  set (i := ex_cinfo false true false true (Some ex_key)).
  set (cs := exch 1000 [reply 0 ex_pdid] ++ exch 1100 [reply 1 ex_pdcap] ++ exch 1200 [reply 2 [65; 5]] ++
    exch 1300 [ex_ccrypt 3 scbk_default 0] ++ exch 1400 [ex_rmac 1] ++ [Update (ex_env 1500 []); Update (ex_env_stuck 1500)]).
  exists i, (chist_from i 4 cs), (state_of (crun_from i 4 cs)). split; [|split; [apply ex_listens; vm_compute; reflexivity|split; vm_compute; reflexivity]].
  apply crun_from_runs; [apply ex_cinfo_typed; exact ex_key_ok| |vm_compute; reflexivity].
  repeat apply Forall_cons; try apply Forall_nil; try exact I; first [apply ex_stuck_typed|apply ex_cenv_typed; vm_compute; reflexivity].
Qed.
Print Assumptions C69_unasked_refuted.
