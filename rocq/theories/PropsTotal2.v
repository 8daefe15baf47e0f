(** Property theorem C53 (panel side): every refresh of an entry ends, except for the listed replies;
    and what happens when the application is less careful. *)
From Verif Require Import Base ListLemmas Crc SpecCrc Aes Rb RbProofs Types Sc Phy File Pd Cp CpCtx SpecRx SpecFrame SpecSec SpecReply
  SpecPd SpecCp SpecCpRun SpecTotal SpecCpTotal SpecFile CpTotal ExPd ExCp ExLink PropsPd2 PropsFile.
Local Opaque RB_SIZE.

(** C53 (part that holds).  An application that sends commands of modest size and transfers no files
    gets a result from every refresh of the entry, whatever bytes arrive in whatever pieces, unless a
    reply is awaited and
    - a packet of 256 bytes with mark arrives, or
    - the reply passes the checks of the packet and either is a packet inside a session whose security
      block leaves no room for code and MAC, or is a keypad or card report with more data than an
      event holds. *)
Theorem C53_total_partial : forall k n i h p e,
  cp_runs k n i h p -> Forall (fun x => careful_cp (ce_call x)) h -> SpecCp.env_typed e ->
  (exists q o, cp_do (Update e) p = Ok (q, o)) \/
  phy_state p = PReplyWait /\ (reply_256 e p \/ fatal_reply e p).
Proof. exact cp_total. Qed.
Print Assumptions C53_total_partial.

(* a careful application with three commands queued; the device answers, loses one, and rambles *)
Definition ex_tame : list cp_call :=
  ExCp.ex_up 0 ++ [Send (ex_env 1150 []) (CText 0 1 0 1 1 3 [72; 101; 121]); Send (ex_env 1150 []) (CMfg 0 1 3 [1; 2; 3]);
   Send (ex_env 1150 []) (CBuzzer 0 2 1 1 1)] ++ exch 1200 [reply 2 [64]] ++
  [Update (ex_env 1260 []); Update (ex_env 1260 []); Update (ex_env 1500 [[255; 83; 1]; [7]])].
Definition ex_tame_i : pdinfo := ex_cinfo false false false true None.
Example C53_total_example :
  let p := state_of (crun_from ex_tame_i 4 ex_tame) in
  let h := chist_from ex_tame_i 4 ex_tame in
  cp_runs 0 4 ex_tame_i h p /\ length h = 15%nat /\ Forall (fun x => careful_cp (ce_call x)) h /\
  (* a refresh that ends *)
  is_ok (cp_do (Update (ex_env 2500 [])) p) = true /\
  let q := state_of (cp_do (Update (ex_env 2500 [])) p) in
  phy_state q = PReplyWait /\
  is_ok (cp_do (Update (ex_env 2510 [reply (seqn q) (80 :: repeat 255 50)])) q) = true /\
  (* and one of the exceptions *)
  (let f := reply (seqn q) ([83; 0; 65] ++ repeat 48 65) in cp_do (Update (ex_env 2510 [firstn 64 f; skipn 64 f])) q = UB OobWrite).
Proof.
  cbv zeta. split; [|split; [vm_compute; reflexivity|split; [|repeat split; vm_compute; reflexivity]]].
  - apply crun_from_runs; [exact I| |vm_compute; reflexivity].
    repeat apply Forall_cons; try apply Forall_nil; try exact I; try (apply ex_cenv_typed; vm_compute; reflexivity).
    all: split; [apply ex_cenv_typed; vm_compute; reflexivity|first [exact I|apply bytesb_ok; reflexivity]].
  - apply (proj1 (Forall_map ce_call careful_cp _)).
    assert (E : map ce_call (chist_from ex_tame_i 4 ex_tame) = rev ex_tame) by (vm_compute; reflexivity).
    rewrite E. apply Forall_rev. repeat apply Forall_cons; try apply Forall_nil; try exact I; vm_compute; intuition discriminate.
Qed.

(** The bound on commands matters: a device that announces a receive buffer of 70 bytes and an
    application that sends a vendor command of 60 bytes stop the panel at an assertion. *)
Definition ex_small : pd :=
  state_of (crun_from ex_tame_i 4 (exch 1000 [reply 0 ex_pdid] ++ exch 1100 [reply 1 [70; 2; 1; 2; 10; 70; 0; 1; 1; 3]] ++
    [Send (ex_env 1150 []) (CMfg 0 1 60 (repeat 7 60)); Update (ex_env 1200 [])])).
Theorem C53_small_refuted : exists p e,
  cp_reach p /\ SpecCp.env_typed e /\ state p = SOnline /\ eph p = EphCmd (CMfg 0 1 60 (repeat 7 60)) /\ e_rx e = [] /\
  cp_do (Update e) p = Die Assertion.
Proof.
  exists ex_small, (ex_env 1200 []). split.
  { apply crun_reach; [exact I| |vm_compute; reflexivity].
    repeat apply Forall_cons; try apply Forall_nil; try exact I; try (apply ex_cenv_typed; vm_compute; reflexivity).
    all: split; [apply ex_cenv_typed; vm_compute; reflexivity|first [exact I|apply bytesb_ok; reflexivity]]. }
  split; [apply ex_cenv_typed; vm_compute; reflexivity|]. repeat split; vm_compute; reflexivity.
Qed.
Print Assumptions C53_small_refuted.

(** With file operations more can go wrong.  A status report with eight bytes of data for a file under way
    stops the panel at an assertion. *)
Theorem C53_ftstat_refuted : exists p e,
  cp_reach p /\ SpecCp.env_typed e /\ xfer p = Some FInprog /\ e_rx e = [reply 2 [122; 0; 0; 0; 1; 0; 0; 0; 9]] /\
  cp_do (Update e) p = Die Assertion.
Proof.
  exists (state_of (crun (ex_cp false false) [CpRegisterFileOps; Send (ex_fenv ex_data 1150 []) (CFileTx 3 0);
    Update (ex_fenv ex_data 1200 []); Update (ex_fenv ex_data 1200 [])])).
  exists (ex_fenv ex_data 1210 [reply 2 [122; 0; 0; 0; 1; 0; 0; 0; 9]]). split.
  { apply crun_reach3; [apply ex_cp_reach| |vm_compute; reflexivity].
    repeat apply Forall_cons; try apply Forall_nil; try exact I; try split; try exact I; apply ex_fenv_typed; vm_compute; reflexivity. }
  split; [apply ex_fenv_typed; vm_compute; reflexivity|]. repeat split; vm_compute; reflexivity.
Qed.
Print Assumptions C53_ftstat_refuted.

(** And so does silence: the application cannot read the file, the panel announces the end of the
    transfer, the answer to that is lost, and the attempt to send it again meets an assertion. *)
Theorem C53_silence_refuted : exists p es q o e,
  cp_reach p /\ Forall SpecCp.env_typed es /\ Forall (fun x => e_rx x = []) es /\ xfer p = Some FInprog /\
  crun p (map Update es) = Ok (q, o) /\ said o = [255; 83; 101; 8; 0; 6; 162; 12; 15] /\
  SpecCp.env_typed e /\ e_rx e = [] /\ cp_do (Update e) q = Die Assertion.
Proof.
  exists (state_of (crun (ex_cp false false) [CpRegisterFileOps; Send (ex_fenv ex_data 1150 []) (CFileTx 3 0)])).
  exists [ex_env 1200 []; ex_env 1200 []; ex_env 1500 []]. do 2 eexists. exists (ex_env 2500 []). split.
  { apply crun_reach3; [apply ex_cp_reach| |vm_compute; reflexivity].
    repeat apply Forall_cons; try apply Forall_nil; try exact I; try split; try exact I; apply ex_fenv_typed; vm_compute; reflexivity. }
  split; [repeat apply Forall_cons; try apply Forall_nil; apply ex_cenv_typed; vm_compute; reflexivity|].
  split; [repeat apply Forall_cons; try apply Forall_nil; reflexivity|].
  split; [vm_compute; reflexivity|]. split; [apply (ExCp.ok_eq (crun _ _)); vm_compute; reflexivity|].
  split; [vm_compute; reflexivity|]. split; [apply ex_cenv_typed; vm_compute; reflexivity|]. split; vm_compute; reflexivity.
Qed.
Print Assumptions C53_silence_refuted.

(** C43 needs the bound on events as well: after the panel announced a receive buffer of 70 bytes, a
    keypad event of 64 keys stops the device at an assertion. *)
Theorem C43_small_refuted : exists p e,
  pd_reach p /\ call_typed (Refresh e) /\ evq p = [EKey 0 64 (repeat 48 64)] /\ e_rx e = [plain_frame 101 2 [96]] /\
  pd_do (Refresh e) p = Die Assertion.
Proof.
  exists (state_of (run_from (ex_info false None) 4
    [SetCallback true; Refresh (ex_env 1000 [plain_frame 101 0 [96]]); Refresh (ex_env 1100 [plain_frame 101 1 [123; 70; 0]]); Notify (EKey 0 64 (repeat 48 64))])).
  exists (ex_env 1200 [plain_frame 101 2 [96]]). split.
  { apply run_reach; [apply ex_info_typed; exact I| |vm_compute; reflexivity].
    repeat apply Forall_cons; try apply Forall_nil; try exact I; try (apply ex_env_typed; vm_compute; reflexivity).
    split; [apply bytesb_ok; reflexivity|vm_compute; discriminate]. }
  split; [apply ex_env_typed; vm_compute; reflexivity|]. repeat split; vm_compute; reflexivity.
Qed.
Print Assumptions C43_small_refuted.
