(** Property theorems C66: files are opened, used and closed in this order. *)
From Verif Require Import Base ListLemmas Crc SpecCrc Aes Rb RbProofs Types Sc Phy File Pd Cp CpCtx SpecRx SpecFrame SpecSec SpecReply
  SpecPd SpecCp SpecCpRun SpecFile SpecOpen SpecOpenCp CpReply OpenPd OpenCp ExPd ExCp ExLink PropsPd2 PropsFile.
Local Opaque RB_SIZE.

(** C66, device.  Whatever arrives and whatever the application answers: the functions registered for files are
    called in the order open, write, ..., write, close.  A file is opened only when none is open, written or closed
    only while it is open, and not touched after a close that succeeded. *)
Theorem C66_device : forall i n h p, pd_runs i n h p -> exists b, filed h b.
Proof. intros i n h p R. exists (busy p). exact (device_files i n h p R). Qed.
Print Assumptions C66_device.

(** C66, panel.  The same order, but for the exceptions listed in puse: an empty file and a file that cannot be read
    stay open, and after a report of unknown status for the last fragment a closed file may be used again. *)
Theorem C66_panel_partial : forall k n i h p, cp_runs k n i h p -> exists b, pfiled h b.
Proof. intros k n i h p R. destruct (panel_files k n i h p R) as (b & H & _). exists b. exact H. Qed.
Print Assumptions C66_panel_partial.

(* the calls of the file functions among the outputs *)
Definition files (o : list out) : list out :=
  filter (fun x => match x with OFOpen _ _ | OFRead _ _ | OFWrite _ _ | OFClose => true | _ => false end) o.

(* a device that receives a file of three bytes in two fragments; after the first one the file is open *)
Definition ex_oi : pdinfo := ex_info false None.
Definition ex_oe (k : Z) (pay : list Z) : env := ex_env (1000 + 100 * k) [plain_frame 101 k pay].
Definition ex_oc : list pd_call :=
  [RegisterFileOps; Refresh (ex_oe 0 [124; 3; 3; 0; 0; 0; 0; 0; 0; 0; 2; 0; 65; 66]); Refresh (ex_oe 1 [124; 3; 3; 0; 0; 0; 2; 0; 0; 0; 1; 0; 67])].
Example C66_device_example :
  pd_reach (state_of (run_from ex_oi 4 ex_oc)) /\
  files (outs_of (run_from ex_oi 4 (firstn 2 ex_oc))) = [OFOpen 3 3; OFWrite [65; 66] 0] /\ xfer (state_of (run_from ex_oi 4 (firstn 2 ex_oc))) = Some FInprog /\
  files (outs_of (run_from ex_oi 4 ex_oc)) = [OFOpen 3 3; OFWrite [65; 66] 0; OFWrite [67] 2; OFClose] /\ xfer (state_of (run_from ex_oi 4 ex_oc)) = Some FDone.
Proof.
  split; [|repeat split; vm_compute; reflexivity].
  apply run_reach; [apply ex_info_typed; exact I| |vm_compute; reflexivity].
  repeat apply Forall_cons; try apply Forall_nil; try exact I; apply ex_env_typed; vm_compute; reflexivity.
Qed.

(* an application whose open and close always succeed *)
Definition willing (c : cp_call) : Prop :=
  match c with Update e | Send e _ => (forall id n, 0 <= fst (e_fopen e id n)) /\ 0 <= e_fclose e | _ => True end.
Definition ex_nine : list Z := firstn 9 PropsFile.ex_data.
(* the application asks for file 3 to be sent, and the only fragment is sent *)
Definition ex_one : list cp_call :=
  [CpRegisterFileOps; Send (ex_fenv ex_nine 1150 []) (CFileTx 3 0); Update (ex_fenv ex_nine 1200 []); Update (ex_fenv ex_nine 1200 [])].
Ltac ex_fcalls := repeat apply Forall_cons; try apply Forall_nil; try exact I; try (split; [|exact I]); first [apply ex_fenv_typed|apply ex_cenv_typed]; vm_compute; reflexivity.
Ltac ex_willing := repeat apply Forall_cons; try apply Forall_nil; try exact I; split; intros; vm_compute; discriminate.

Example C66_panel_example :
  let cs := ex_one ++ [Update (ex_fenv ex_nine 1210 [reply 2 [122; 0; 0; 0; 1; 0; 0; 0]])] in
  cp_reach (state_of (crun (ex_cp false false) cs)) /\ files (outs_of (crun (ex_cp false false) ex_one)) = [OFOpen 3 0; OFRead 223 0] /\
  files (outs_of (crun (ex_cp false false) cs)) = [OFOpen 3 0; OFRead 223 0; OFClose] /\ xfer (state_of (crun (ex_cp false false) cs)) = Some FDone.
Proof.
  cbv zeta. split; [|repeat split; vm_compute; reflexivity]. apply crun_reach3; [apply ex_cp_reach|ex_fcalls|vm_compute; reflexivity].
Qed.

(** C66, panel, what fails: a file that is empty is opened and never closed. *)
Theorem C66_empty_refuted : exists p cs q o,
  cp_reach p /\ Forall cp_call_typed cs /\ Forall willing cs /\ crun p cs = Ok (q, o) /\ files o = [OFOpen 3 0; OFOpen 4 0].
Proof.
  exists (ex_cp false false), [CpRegisterFileOps; Send (ex_fenv [] 1150 []) (CFileTx 3 0); Send (ex_fenv PropsFile.ex_data 1150 []) (CFileTx 4 0)]. do 2 eexists.
  split; [apply ex_cp_reach|]. split; [ex_fcalls|]. split; [ex_willing|]. split; [apply ExCp.ok_eq; vm_compute; reflexivity|vm_compute; reflexivity].
Qed.
Print Assumptions C66_empty_refuted.

(** A file whose reading fails is never closed either. *)
Theorem C66_unreadable_refuted : exists p cs q o,
  cp_reach p /\ Forall cp_call_typed cs /\ Forall willing cs /\ crun p cs = Ok (q, o) /\ files o = [OFOpen 3 0; OFRead 223 0; OFOpen 4 0].
Proof.
  exists (ex_cp false false), ([CpRegisterFileOps; Send (ex_fenv PropsFile.ex_data 1150 []) (CFileTx 3 0)] ++ exch 1200 [reply 2 [64]] ++ [Send (ex_fenv PropsFile.ex_data 1300 []) (CFileTx 4 0)]).
  do 2 eexists. split; [apply ex_cp_reach|]. split; [ex_fcalls|]. split; [ex_willing|]. split; [apply ExCp.ok_eq; vm_compute; reflexivity|vm_compute; reflexivity].
Qed.
Print Assumptions C66_unreadable_refuted.

(** And when the device reports status 0 for the last fragment, the file is closed, the device is taken offline, and
    the cancellation of the transfer by the application closes the file a second time. *)
Theorem C66_twice_refuted : exists p cs q o,
  cp_reach p /\ Forall cp_call_typed cs /\ Forall willing cs /\ crun p cs = Ok (q, o) /\ files o = [OFOpen 3 0; OFRead 223 0; OFClose; OFClose].
Proof.
  exists (ex_cp false false), (ex_one ++ [Update (ex_fenv ex_nine 1210 [reply 2 [122; 0; 0; 0; 0; 0; 0; 0]]); Update (ex_env 400000 [])] ++
    exch 400100 [reply 0 ex_pdid] ++ exch 400200 [reply 1 ex_pdcap_plain] ++ [Send (ex_fenv ex_nine 400300 []) (CFileTx 3 2147483648); Update (ex_fenv ex_nine 400400 [])]).
  do 2 eexists. split; [apply ex_cp_reach|]. split; [ex_fcalls|]. split; [ex_willing|]. split; [apply ExCp.ok_eq; vm_compute; reflexivity|vm_compute; reflexivity].
Qed.
Print Assumptions C66_twice_refuted.
