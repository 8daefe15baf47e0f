(** Property theorems C41, C42: file transfer. *)
From Verif Require Import Base ListLemmas SpecCrc Aes Rb RbProofs Types Sc Phy File Pd Cp CpCtx PdRun SpecRx SpecFrame SpecSec SpecSession SpecCmd SpecApp
  SpecPd SpecCp SpecCpRun SpecLink SpecHand SpecTalk SpecFile PdTx PdStep CpInv Talk3 Talk4 Talk5 Talk6 Xfer ExPd ExCp ExLink PropsTalk.
From Coq Require Import ZifyBool ZifyNat.
Ltac Zify.zify_post_hook ::= Z.div_mod_to_equations.
Local Opaque aes_ecb_encrypt aes_cbc_encrypt aes_cbc_decrypt mac_of RB_SIZE osdp_mac enc1 osdp_encrypt encrypt_data.

(** C41.  For every content and however the application cuts its reads: the command is accepted, and
    on a line that loses nothing every round makes the device write the bytes that follow those
    already written, at their offset.  After finitely many rounds all is written, and both sides are
    done then and not before. *)
Theorem C41_transfer : forall c p e id flags data,
  may_send c p -> env_typed e -> 0 <= id < 256 -> 0 < zlen data < 2 ^ 31 -> opens e id (zlen data) ->
  Z.testbit flags 31 = false -> Z.testbit flags 26 = false ->
  exists c', cp_do (Send e (CFileTx id flags)) c = Ok (c', [OFOpen id 0]) /\ transfers data [] c' p.
Proof.
  intros c p e id flags data [[RC Ph L (QC & QP) (N1 & N2)] RP (St & CQ & RO) (SC & EN) CF XC XP] TE ID SZ [O1 O2] B1 B2.
  unfold xfer in XC, XP. destruct (file c) as [f|] eqn:F; [|destruct XC; discriminate]. destruct (file p) as [g|] eqn:G; [|destruct XP; discriminate].
  assert (NP : in_progress f = false) by (unfold in_progress; destruct XC as [X|X]; injection X as X; rewrite X; reflexivity).
  set (f0 := mkFile flags id FInprog 0 (zlen data) 0 0 false 0 0).
  assert (D : cp_do (Send e (CFileTx id flags)) c = Ok (set_file (Some f0) c, [OFOpen id 0])).
  { unfold cp_do, cp_send_command. rewrite St. cbn [st_eqb negb]. unfold file_tx_command. rewrite F, NP. change FB_CANCEL with 31. rewrite B1. destruct (e_fopen e id 0) as [rc n].
    cbn [fst snd] in O1, O2. replace (rc <? 0) with false by lia. replace (n <=? 0) with false by lia. rewrite O2. reflexivity. }
  eexists. split; [exact D|]. apply (mid_ends data id (length data)); [cbn [length]; lia|].
  constructor.
  - split; [|exact (reach_inv p RP)]. exact (cp_do_inv (Send e (CFileTx id flags)) c _ _ (conj TE I) (cp_reach_inv c RC) D).
  - split; [exact St|]. split; [exact CQ|]. split; [exact RO|exact Ph].
  - apply (line_like c (set_file (Some f0) c) p); try reflexivity. exact L.
  - split; [exact QC|exact QP].
  - split; [exact N1|exact N2].
  - split; [exact SC|exact EN].
  - exact (conj ID SZ).
  - exact CF.
  - exists f0. split; [reflexivity|]. unfold going, f0. cbn [f_state f_id f_size f_off f_err f_cancel f_wait f_flags]. repeat split; try reflexivity. exact B2.
  - exists g. split; [exact G|]. left. split; [reflexivity|]. destruct XP as [X|X]; injection X as X; rewrite X; auto.
  - exists data. split; [reflexivity|lia].
Qed.
Print Assumptions C41_transfer.

(* the applications of a transfer of data: the file is read in pieces of at most 20 bytes *)
Definition ex_fenv (data : list Z) (now : Z) (rx : list (list Z)) : env :=
  mkEnv now rx 1000 [11; 12; 13; 14; 15; 16; 17; 18] (fun _ c => (0, c)) true (fun _ n => (0, zlen data))
    (fun n off => Some (firstn (Z.to_nat (Z.min (Z.min n 20) (zlen data - off))) (skipn (Z.to_nat off) data))) (fun d _ => zlen d) 0.
Lemma ex_fenv_typed data now rx : bytesb data = true -> forallb bytesb rx = true -> env_typed (ex_fenv data now rx).
Proof.
  intros D H. split; [|split; [apply bytesb_ok; reflexivity|]].
  - apply Forall_forall. intros x Hx. rewrite forallb_forall in H. apply bytesb_ok; auto.
  - intros n off d X. injection X as <-. apply bytesb_ok in D. apply bytes_firstn, bytes_skipn. exact D.
Qed.
Lemma ex_fenv_reads data now rx : reads data (ex_fenv data now rx).
Proof. intros n off N O. exists (Z.min (Z.min n 20) (zlen data - off)). split; [lia|]. split; [lia|reflexivity]. Qed.
Lemma ex_fenv_stores data now rx : stores (ex_fenv data now rx).
Proof. repeat split; intros; cbn; lia. Qed.
(* as duo, with these applications, and with the calls made to the device's application *)
Fixpoint fduo (data : list Z) (k : nat) (t : Z) (c p : pd) (rx : list Z) (os : list out) : pd * pd * list out :=
  match k with
  | O => (c, p, os)
  | S k =>
      match cp_do (Update (ex_fenv data t [rx])) c with
      | Ok (c1, o1) =>
          match pd_do (Refresh (ex_fenv data t [said o1])) p with
          | Ok (p1, o2) => fduo data k (t + 20) c1 p1 (said o2) (os ++ o2)
          | _ => (c1, p, os)
          end
      | _ => (c, p, os)
      end
  end.
Definition ex_data : list Z := map Z.of_nat (seq 100 40).
(* the line of ExLink in session, with file operations on both sides *)
Definition ex_fc : pd := Eval vm_compute in state_of (crun ex_lc [CpRegisterFileOps]).
Definition ex_fp : pd := Eval vm_compute in state_of (run ex_lp [SetCallback true; RegisterFileOps]).
Lemma ex_fc_reach : cp_reach ex_fc.
Proof.
  assert (E : ex_fc = state_of (crun ex_lc [CpRegisterFileOps])) by (vm_compute; reflexivity). rewrite E.
  apply crun_reach3; [exact ex_lc_reach|apply Forall_cons; [exact I|apply Forall_nil]|vm_compute; reflexivity].
Qed.
Lemma ex_fp_reach : pd_reach ex_fp.
Proof.
  destruct ex_tp_reach as (i & n & h & R). exists i, n, (mkEntry ex_tp RegisterFileOps [] :: h).
  apply (runs_step i n h ex_tp RegisterFileOps ex_fp []); [exact R|exact I|vm_compute; reflexivity].
Qed.
Lemma ex_may_send : may_send ex_fc ex_fp.
Proof.
  constructor.
  - constructor.
    + exact ex_fc_reach.
    + reflexivity.
    + assert (X : in_step ex_fc ex_fp) by (destruct (ex_step_ok ex_fp ex_in_step eq_refl eq_refl eq_refl eq_refl) as [[A1 A2 A3 A4 A5] B C D E F G]; constructor; [constructor|..]; assumption).
      split; [exact (is_ends _ _ X)|right; exact X].
    + split; ex_quiet.
    + vm_compute. split; discriminate.
  - exact ex_fp_reach.
  - repeat split; reflexivity.
  - split; [left; reflexivity|right; reflexivity].
  - vm_compute. discriminate.
  - left. reflexivity.
  - left. reflexivity.
Qed.
(* 40 bytes in session, two rounds of three refreshes *)
Definition ex_after (k : nat) : option fstate * option fstate * list (list Z * Z) :=
  match cp_do (Send (ex_fenv ex_data 1340 []) (CFileTx 3 0)) ex_fc with
  | Ok (c, _) => let r := fduo ex_data k 1360 c ex_fp [] [] in (xfer (fst (fst r)), xfer (snd (fst r)), writes (snd r))
  | _ => (None, None, [])
  end.
Example C41_example :
  may_send ex_fc ex_fp /\ opens (ex_fenv ex_data 1340 []) 3 (zlen ex_data) /\ reads ex_data (ex_fenv ex_data 1340 []) /\ stores (ex_fenv ex_data 1340 []) /\
  ex_after 3 = (Some FInprog, Some FInprog, [(map Z.of_nat (seq 100 20), 0)]) /\
  ex_after 6 = (Some FDone, Some FDone, [(map Z.of_nat (seq 100 20), 0); (map Z.of_nat (seq 120 20), 20)]).
Proof.
  split; [exact ex_may_send|]. split; [vm_compute; split; [discriminate|reflexivity]|]. split; [apply ex_fenv_reads|]. split; [apply ex_fenv_stores|].
  split; vm_compute; reflexivity.
Qed.

(** C41.  The side condition chunk_fits in may_send is needed: with a receive buffer of 250 bytes the
    panel asks its application for as many bytes as fit in clear; encrypted and padded the packet is
    larger than the buffer of the device.  The panel sends nothing and goes offline. *)
Definition ex_up0 : pd := match pd_setup (ex_info true (Some ex_key)) 4 with Some p => state_of (pd_do (SetCaps [mkCap 10 250 0]) p) | None => pd_zero end.
Definition ex_uuo := Eval vm_compute in duo 17 1000 ex_c0 ex_up0 [] [] [].
Definition ex_uc : pd := Eval vm_compute in state_of (crun (fst (fst (fst ex_uuo))) [CpRegisterFileOps]).
Definition ex_up : pd := Eval vm_compute in state_of (run (snd (fst (fst ex_uuo))) [SetCallback true; RegisterFileOps]).
Lemma ex_uc_reach : cp_reach ex_uc.
Proof.
  assert (E : ex_uc = state_of (crun_from ex_cinfo_sc 4 (map (fun x => Update (ex_env (fst x) [snd x])) (snd (fst ex_uuo)) ++ [CpRegisterFileOps]))) by (vm_compute; reflexivity).
  rewrite E. apply crun_reach; [apply ex_cinfo_typed; exact ex_key_ok| |vm_compute; reflexivity].
  apply Forall_app. split; [ex_ccalls|apply Forall_cons; [exact I|apply Forall_nil]].
Qed.
Lemma ex_up_reach : pd_reach ex_up.
Proof.
  assert (E : ex_up = state_of (run_from (ex_info true (Some ex_key)) 4 (SetCaps [mkCap 10 250 0] :: map (fun x => Refresh (ex_env (fst x) [snd x])) (snd ex_uuo) ++ [SetCallback true; RegisterFileOps]))) by (vm_compute; reflexivity).
  rewrite E. apply run_reach; [apply ex_info_typed; exact ex_key_ok| |vm_compute; reflexivity].
  apply Forall_cons; [repeat (apply Forall_cons; [split; simpl; unfold byte; lia|]); apply Forall_nil|].
  apply Forall_app. split; [repeat apply Forall_cons; try apply Forall_nil; apply ex_env_typed; vm_compute; reflexivity|repeat (apply Forall_cons; [exact I|]); apply Forall_nil].
Qed.
(* the file is read as far as asked for *)
Definition ex_all (data : list Z) (now : Z) : env :=
  mkEnv now [] 1000 [11; 12; 13; 14; 15; 16; 17; 18] (fun _ c => (0, c)) true (fun _ n => (0, zlen data))
    (fun n off => Some (firstn (Z.to_nat (Z.min n (zlen data - off))) (skipn (Z.to_nat off) data))) (fun d _ => zlen d) 0.
Lemma ex_all_typed data now : bytesb data = true -> env_typed (ex_all data now).
Proof.
  intros D. split; [apply Forall_nil|split; [apply bytesb_ok; reflexivity|]].
  intros n off d X. injection X as <-. apply bytesb_ok in D. apply bytes_firstn, bytes_skipn. exact D.
Qed.
Lemma ex_all_reads data now : reads data (ex_all data now).
Proof. intros n off N O. exists (Z.min n (zlen data - off)). split; [lia|]. split; [lia|reflexivity]. Qed.
Theorem C41_unaligned_refuted : exists c p data e0 e1 e2 c0 c1 c2 o,
  cp_reach c /\ pd_reach p /\ connected c p /\ state c = SOnline /\ cmdq c = [] /\ rq_offline c = false /\ sc_active (fl c) = true /\ xfer c = Some FIdle /\ xfer p = Some FIdle /\
  env_typed e0 /\ env_typed e1 /\ env_typed e2 /\ 256 <= e_tx e2 /\ opens e0 3 (zlen data) /\ reads data e2 /\
  cp_do (Send e0 (CFileTx 3 0)) c = Ok (c0, [OFOpen 3 0]) /\ cp_do (Update e1) c0 = Ok (c1, []) /\ cp_do (Update e2) c1 = Ok (c2, o) /\
  said o = [] /\ state c2 = SOffline.
Proof.
  pose (data := repeat 7 300). pose (E := ex_all data). pose (r0 := cp_do (Send (E 1340) (CFileTx 3 0)) ex_uc).
  pose (r1 := cp_do (Update (E 1360)) (state_of r0)). pose (r2 := cp_do (Update (E 1380)) (state_of r1)).
  exists ex_uc, ex_up, data, (E 1340), (E 1360), (E 1380), (state_of r0), (state_of r1), (state_of r2), (outs_of r2).
  split; [exact ex_uc_reach|]. split; [exact ex_up_reach|]. split.
  { assert (X : in_step ex_uc ex_up).
    { constructor; [constructor|..]; try (vm_compute; repeat split; first [reflexivity|discriminate]).
      repeat (constructor; [split; [reflexivity|apply bytesb_ok; vm_compute; reflexivity]|]). constructor. }
    constructor.
    - exact ex_uc_reach.
    - reflexivity.
    - split; [exact (is_ends _ _ X)|right; exact X].
    - split; ex_quiet.
    - vm_compute. split; discriminate. }
  do 6 (split; [reflexivity|]). do 3 (split; [apply ex_all_typed; vm_compute; reflexivity|]). split; [vm_compute; discriminate|].
  split; [vm_compute; split; [discriminate|reflexivity]|]. split; [apply ex_all_reads|].
  do 4 (split; [vm_compute; reflexivity|]). vm_compute. reflexivity.
Qed.
Print Assumptions C41_unaligned_refuted.

(** C42.  False: the answer to the first chunk is lost, the panel sends the chunk again, under a new
    number.  The device takes it for the next one and counts it, although it writes to the old offset.
    Here it declares the transfer done after the first half was written twice. *)
Definition ex_qc0 : pd := match new_pd 0 4 (ex_cinfo false false false false None) with Some p => p | None => pd_zero end.
Definition ex_qp0 : pd := match pd_setup (ex_info false None) 4 with Some p => p | None => pd_zero end.
Definition ex_quo := Eval vm_compute in duo 17 1000 ex_qc0 ex_qp0 [] [] [].
Definition ex_qc : pd := Eval vm_compute in state_of (crun (fst (fst (fst ex_quo))) [CpRegisterFileOps]).
Definition ex_qp : pd := Eval vm_compute in state_of (run (snd (fst (fst ex_quo))) [SetCallback true; RegisterFileOps]).
Lemma ex_qc_reach : cp_reach ex_qc.
Proof.
  assert (E : ex_qc = state_of (crun_from (ex_cinfo false false false false None) 4 (map (fun x => Update (ex_env (fst x) [snd x])) (snd (fst ex_quo)) ++ [CpRegisterFileOps]))) by (vm_compute; reflexivity).
  rewrite E. apply crun_reach; [apply ex_cinfo_typed; exact I| |vm_compute; reflexivity].
  apply Forall_app. split; [ex_ccalls|apply Forall_cons; [exact I|apply Forall_nil]].
Qed.
Lemma ex_qp_reach : pd_reach ex_qp.
Proof.
  assert (E : ex_qp = state_of (run_from (ex_info false None) 4 (map (fun x => Refresh (ex_env (fst x) [snd x])) (snd ex_quo) ++ [SetCallback true; RegisterFileOps]))) by (vm_compute; reflexivity).
  rewrite E. apply run_reach; [apply ex_info_typed; exact I| |vm_compute; reflexivity].
  apply Forall_app. split; [repeat apply Forall_cons; try apply Forall_nil; apply ex_env_typed; vm_compute; reflexivity|repeat (apply Forall_cons; [exact I|]); apply Forall_nil].
Qed.
Lemma ex_may_send_plain : may_send ex_qc ex_qp.
Proof.
  constructor.
  - constructor.
    + exact ex_qc_reach.
    + reflexivity.
    + split; [constructor; vm_compute; repeat split; discriminate|left]. vm_compute. repeat split; try discriminate. auto.
    + split; ex_quiet.
    + vm_compute. split; discriminate.
  - exact ex_qp_reach.
  - repeat split; reflexivity.
  - split; [right; reflexivity|left; reflexivity].
  - vm_compute. discriminate.
  - left. reflexivity.
  - left. reflexivity.
Qed.
Theorem C42_repeat_refuted : exists c p data e0 e1 e2 e3 e4 e5 e6 c0 c1 c2 c3 c4 p1 p2 o1 o2 w1 w2 w3,
  may_send c p /\ opens e0 3 (zlen data) /\ Forall (reads data) [e2; e5] /\ Forall stores [e3; e6] /\ Forall env_typed [e0; e1; e2; e3; e4; e5; e6] /\
  cp_do (Send e0 (CFileTx 3 0)) c = Ok (c0, [OFOpen 3 0]) /\ cp_do (Update e1) c0 = Ok (c1, []) /\
  cp_do (Update e2) c1 = Ok (c2, [OFRead 223 0; OTx w1]) /\ heard (e_rx e3) = w1 /\ pd_do (Refresh e3) p = Ok (p1, o1 ++ [OTx w2]) /\
  heard (e_rx e4) = [] /\ cp_do (Update e4) c2 = Ok (c3, []) /\ heard (e_rx e5) = [] /\ cp_do (Update e5) c3 = Ok (c4, [OFRead 223 0; OTx w3]) /\
  heard (e_rx e6) = w3 /\ pd_do (Refresh e6) p1 = Ok (p2, o2) /\
  writes (o1 ++ o2) = [(firstn 20 data, 0); (firstn 20 data, 0)] /\ zlen data = 40 /\ xfer p2 = Some FDone /\ In OFClose o2.
Proof.
  pose (E := ex_fenv ex_data). pose (r0 := cp_do (Send (E 1340 []) (CFileTx 3 0)) ex_qc). pose (r1 := cp_do (Update (E 1360 [])) (state_of r0)).
  pose (r2 := cp_do (Update (E 1380 [])) (state_of r1)). pose (d1 := pd_do (Refresh (E 1380 [said (outs_of r2)])) ex_qp).
  pose (r3 := cp_do (Update (E 1600 [])) (state_of r2)). pose (r4 := cp_do (Update (E 2500 [])) (state_of r3)).
  pose (d2 := pd_do (Refresh (E 2500 [said (outs_of r4)])) (state_of d1)).
  exists ex_qc, ex_qp, ex_data, (E 1340 []), (E 1360 []), (E 1380 []), (E 1380 [said (outs_of r2)]), (E 1600 []), (E 2500 []), (E 2500 [said (outs_of r4)]),
    (state_of r0), (state_of r1), (state_of r2), (state_of r3), (state_of r4), (state_of d1), (state_of d2), (removelast (outs_of d1)), (outs_of d2), (said (outs_of r2)), (said (outs_of d1)), (said (outs_of r4)).
  split; [exact ex_may_send_plain|]. split; [vm_compute; split; [discriminate|reflexivity]|].
  split; [repeat (apply Forall_cons; [apply ex_fenv_reads|]); apply Forall_nil|]. split; [repeat (apply Forall_cons; [apply ex_fenv_stores|]); apply Forall_nil|].
  split; [repeat (apply Forall_cons; [apply ex_fenv_typed; vm_compute; reflexivity|]); apply Forall_nil|].
  do 14 (split; [vm_compute; reflexivity|]). vm_compute. auto.
Qed.
Print Assumptions C42_repeat_refuted.
