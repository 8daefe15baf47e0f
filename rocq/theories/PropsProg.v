(** What the panel tells about the progress of a file transfer. *)
From Verif Require Import Base ListLemmas Crc SpecCrc Aes Rb RbProofs Types Sc Phy File Pd Cp CpCtx SpecRx SpecFrame SpecSec SpecReply PdReply PdStep
  SpecPd SpecCp SpecCpRun SpecFile SpecOpen SpecOpenCp CpStep CpInv CpReply OpenPd OpenCp ExPd ExCp ExLink PropsPd2 PropsFile PropsOpen SpecProg ProgCp.
From Coq Require Import ZifyBool ZifyNat.
Local Opaque RB_SIZE.

(** C67.  After any history in which file functions have been registered, the query answers with the size that the
    application gave when it opened the file and with the number of bytes that were read and acknowledged, as the
    application can reckon them itself; and it fails when by this reckoning there is nothing to tell. *)
Theorem C67_progress : forall k n i h p, cp_runs k n i h p -> Forall (fun x => sized_call (ce_call x)) h -> registered h ->
  exists g, told h g /\ get_file_tx_status p = Ok (match g with Nothing => None | At s o _ => Some (s, o) end).
Proof.
  intros k n i h p R Z G. destruct (panel_progress k n i h p R Z) as (RG & g & T & A). exists g. split; auto. specialize (RG G).
  unfold get_file_tx_status. destruct g as [|s o j]; simpl in A.
  - destruct (file p) as [f|]; [|congruence]. destruct A as [->| ->]; reflexivity.
  - destruct A as (f & -> & [->| ->] & -> & -> & _); reflexivity.
Qed.
Print Assumptions C67_progress.

(** The offset stays inside the file. *)
Theorem C67_bounds : forall k n i h p s o, cp_runs k n i h p -> Forall (fun x => sized_call (ce_call x)) h ->
  get_file_tx_status p = Ok (Some (s, o)) -> 0 < s /\ 0 <= o <= s.
Proof.
  intros k n i h p s o R Z H. destruct (panel_progress k n i h p R Z) as (_ & g & T & A). unfold get_file_tx_status in H.
  destruct g as [|s1 o1 j]; simpl in A.
  - destruct (file p) as [f|]; [|discriminate]. destruct A as [E|E]; rewrite E in H; discriminate.
  - destruct A as (f & F & ST & E1 & E2 & _ & B). rewrite F in H. destruct ST as [E|E]; rewrite E in H; injection H as <- <-; lia.
Qed.
Print Assumptions C67_bounds.

Lemma psteps_same e a g o s i k : psteps e a g o (At s i k) -> (exists j, g = At s i j) \/ (i = 0 /\ exists id n, In (OFOpen id n) o).
Proof.
  intros H. remember (At s i k) as g2 eqn:E. revert k E. induction H as [g|g x g1 o g2 X H IH]; intros k E.
  - left. exists k. auto.
  - destruct (IH k E) as [(j & J)|(J & id & n & K)]; [|right; split; auto; exists id, n; right; auto].
    destruct X; try discriminate J.
    + injection J as _ <- _. right. split; auto. exists id, n. left; auto.
    + left. exists j. auto.
    + injection J as <- <- _. left. exists k0. auto.
    + left. exists j. auto.
    + left. exists j. auto.
Qed.

(** From one call to the next the answer stays the same, or grows when a status report arrives, or it starts again
    with 0 after an open. *)
Theorem C67_forward : forall k n i h p c q u s o s1 o1, cp_runs k n i h p -> Forall (fun x => sized_call (ce_call x)) h ->
  cp_call_typed c -> sized_call c -> cp_do c p = Ok (q, u) ->
  get_file_tx_status p = Ok (Some (s, o)) -> get_file_tx_status q = Ok (Some (s1, o1)) ->
  (s1 = s /\ o1 = o) \/
  (s1 = s /\ o < o1 /\ exists e l, c = Update e /\ heard_reply e p l /\ nth 0 l 0 = 122) \/
  (o1 = 0 /\ exists id m, In (OFOpen id m) u).
Proof.
  intros k n i h p c q u s o s1 o1 R Z CT SC D P Q. destruct (panel_progress k n i h p R Z) as (_ & g & _ & A).
  assert (AT : forall g x s o, agrees g x -> get_file_tx_status x = Ok (Some (s, o)) -> exists j, g = At s o j /\ 0 <= j).
  { clear. intros g x s o A H. unfold get_file_tx_status in H. destruct g as [|s1 o1 j]; simpl in A.
    - destruct (file x) as [f|]; [|discriminate]. destruct A as [E|E]; rewrite E in H; discriminate.
    - destruct A as (f & F & ST & E1 & E2 & _ & B). rewrite F in H. exists j. destruct ST as [E|E]; rewrite E in H; injection H as <- <-; rewrite E1, E2; split; auto; lia. }
  destruct (AT g p s o A P) as (j & -> & J0).
  assert (PL : forall e, psteps e false (At s o j) u (At s1 o1 0) \/ (exists k, psteps e false (At s o j) u (At s1 o1 k)) ->
     (s1 = s /\ o1 = o) \/ (s1 = s /\ o < o1 /\ exists e l, c = Update e /\ heard_reply e p l /\ nth 0 l 0 = 122) \/ (o1 = 0 /\ exists id m, In (OFOpen id m) u)).
  { intros e [H|(k1 & H)]; apply psteps_same in H as [(j1 & X)|X]; auto; injection X as -> -> _; auto. }
  assert (SAME : file q = file p -> (s1 = s /\ o1 = o)).
  { intros E. unfold get_file_tx_status in P, Q. rewrite E in Q. rewrite P in Q. injection Q as <- <-. auto. }
  pose proof (cp_runs_inv _ _ _ _ _ R) as CI. destruct c; cbn [cp_do] in D.
  - apply bind_inv in D as ([[q1 rc] u1] & U & D). injection D as <- <-. cbn [fst snd] in *.
    destruct (update_goes e p q1 rc u1 CI CT SC U) as [_ Y]. destruct (Y _ A) as (g1 & M & A1). destruct (AT g1 q1 s1 o1 A1 Q) as (j1 & -> & _).
    inversion M as [g0 o0 g1 H|s0 off0 k0 l o0 g1 HR L0 LE H]; subst.
    + apply (PL e). right. exists j1. exact H.
    + apply psteps_same in H as [(j2 & X)|X]; [|right; right; exact X]. unfold advance in X. destruct (_ && _); [discriminate|]. injection X as X1 X2 _.
      destruct (Z.eq_dec j 0) as [->|NZ]; [left; split; lia|]. right. left. split; [lia|]. split; [lia|]. exists e, l. auto.
  - injection D as <- <-. destruct (send_goes e p c SC) as [_ Y]. destruct (Y _ A) as (g1 & M & A1). destruct (AT g1 _ s1 o1 A1 Q) as (j1 & -> & _).
    inversion M; subst; [|contradiction]. apply (PL e). right. exists j1. auto.
  - injection D as <- <-. left. apply SAME. reflexivity.
  - injection D as <- <-. left. apply SAME. unfold cp_modify_flag. destruct other; [reflexivity|]. cbv zeta. simpl. destruct ign, inst, enf; reflexivity.
  - injection D as <- <-. discriminate Q.
  - injection D as <- <-. left. apply SAME. reflexivity.
Qed.
Print Assumptions C67_forward.

(* a file of nine bytes: nothing acknowledged, then everything *)
Example C67_example :
  let c9 := Update (ex_fenv ex_nine 1210 [reply 2 [122; 0; 0; 0; 1; 0; 0; 0]]) in
  Forall sized_call (ex_one ++ [c9]) /\ cp_reach (state_of (crun (ex_cp false false) ex_one)) /\
  get_file_tx_status (state_of (crun (ex_cp false false) ex_one)) = Ok (Some (9, 0)) /\
  get_file_tx_status (state_of (crun (ex_cp false false) (ex_one ++ [c9]))) = Ok (Some (9, 9)).
Proof.
  cbv zeta. split; [|split; [apply crun_reach3; [apply ex_cp_reach|ex_fcalls|vm_compute; reflexivity]|split; vm_compute; reflexivity]].
  assert (S : forall t a, sized (ex_fenv ex_nine t a)).
  { intros t a. split; [intros; vm_compute; reflexivity|]. intros n off d E. injection E as <-. unfold zlen. rewrite firstn_length, skipn_length. change (length ex_nine) with 9%nat. lia. }
  repeat apply Forall_cons; try apply Forall_nil; try exact I; apply S.
Qed.

(** What fails: the query before file functions are registered follows a null pointer. *)
Theorem C67_unregistered_refuted : exists p, cp_reach p /\ get_file_tx_status p = UB NullCall.
Proof. exists (ex_cp false false). split; [apply ex_cp_reach|vm_compute; reflexivity]. Qed.
Print Assumptions C67_unregistered_refuted.

(** A device counts bytes, not places: when the first half of a file of four bytes arrives twice, each time with a
    sequence number of its own, the device tells that all of the file is there. *)
Definition ex_twice : list pd_call :=
  [RegisterFileOps; Refresh (ex_oe 0 [124; 3; 4; 0; 0; 0; 0; 0; 0; 0; 2; 0; 65; 66]); Refresh (ex_oe 1 [124; 3; 4; 0; 0; 0; 0; 0; 0; 0; 2; 0; 65; 66])].
Theorem C67_repeated_refuted : exists p, pd_reach p /\ get_file_tx_status p = Ok (Some (4, 4)) /\
  files (outs_of (run_from ex_oi 4 ex_twice)) = [OFOpen 3 4; OFWrite [65; 66] 0; OFWrite [65; 66] 0; OFClose] /\ p = state_of (run_from ex_oi 4 ex_twice).
Proof.
  exists (state_of (run_from ex_oi 4 ex_twice)). split; [|repeat split; vm_compute; reflexivity].
  apply run_reach; [apply ex_info_typed; exact I| |vm_compute; reflexivity].
  repeat apply Forall_cons; try apply Forall_nil; try exact I; apply ex_env_typed; vm_compute; reflexivity.
Qed.
Print Assumptions C67_repeated_refuted.
