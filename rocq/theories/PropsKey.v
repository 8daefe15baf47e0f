(** Property theorem C60: a change of the key, by command and when a device without a key is set up. *)
From Verif Require Import Base ListLemmas Crc SpecCrc Aes Rb RbProofs Types Sc Phy File Pd Cp CpCtx PdRun SpecRx SpecFrame SpecSec SpecSession SpecCmd SpecApp SpecPd SpecCp SpecCpRun SpecLink SpecTalk
  CpInv Keys ExPd ExCp ExLink PropsPd2 PropsTalk PropsRun SpecHand SpecRun SpecBoot SpecKey.
Local Opaque aes_ecb_encrypt aes_cbc_encrypt aes_cbc_decrypt mac_of RB_SIZE osdp_mac enc1 osdp_encrypt encrypt_data.

(** C60.  Both are in a session, nothing else is waiting, and the panel's application sends a new key.  The
    device's application is called once, with this key; when it takes it, three exchanges later both store
    the key, are in a new session made with it and ready for commands and events (C58 tells what happens
    then). *)
Theorem C60_rotates : forall c p e key c0 o,
  at_work c p -> in_step c p -> cmdq c = [] -> has_scbk (fl c) = true -> use_scbkd (fl c) = false -> cap_sc p = true ->
  is_key key -> env_typed e -> cp_send_command e c (CKeyset 1 16 key) = (c0, true, o) ->
  key_round key c0 p (fun c1 p1 _ => two_rounds c1 p1 (fun c3 p3 => at_work c3 p3 /\ in_step c3 p3 /\ share key c3 p3)).
Proof. exact rotates. Qed.
Print Assumptions C60_rotates.

(** C60.  The panel reached a device with the default key (SCBK-D): the device is in install mode, or was
    set up with that key.  The handshake succeeds; then the panel, by itself, gives the device its own key;
    two more exchanges later both store it, neither uses the default key any more, the device has left
    install mode, and they are in a session made with the panel's key. *)
Theorem C60_provisions : forall c p, may_shake c p -> use_scbkd (fl c) = true -> can_work c p ->
  two_rounds c p (fun c2 p2 => key_round (scbk (sc c)) c2 p2 (fun c3 p3 _ =>
  two_rounds c3 p3 (fun c5 p5 => at_work c5 p5 /\ in_step c5 p5 /\ share (scbk (sc c)) c5 p5))).
Proof. exact provisioned. Qed.
Print Assumptions C60_provisions.

(** C60.  The device stores the key before its answer is sent.  Until that answer arrives the panel keeps
    the old one, and the device has left the session the answer belongs to. *)
Theorem C60_halfway : forall c p e key c0 o,
  at_work c p -> in_step c p -> cmdq c = [] -> cap_sc p = true ->
  is_key key -> env_typed e -> cp_send_command e c (CKeyset 1 16 key) = (c0, true, o) ->
  forall e1 e2, env_typed e1 -> env_typed e2 -> 256 <= e_tx e2 ->
  moves (cp_do (Update e1) c0) (fun c1 => says (cp_do (Update e2) c1) (fun c2 w1 =>
  forall e3, hears e3 w1 -> in_session e3 p -> takes_key key e3 ->
  exists p' w2, pd_do (Refresh e3) p = Ok (p', [OCmd (CKeyset 1 16 key); OTx w2]) /\
  scbk (sc p') = key /\ use_scbkd (fl p') = false /\ install (fl p') = false /\ sc_active (fl p') = false /\
  scbk (sc c2) = scbk (sc c) /\ use_scbkd (fl c2) = use_scbkd (fl c))).
Proof. exact halfway. Qed.
Print Assumptions C60_halfway.

(* --- examples --- *)
Definition ex_new_key : list Z := Eval vm_compute in map (fun k => 2 * Z.of_nat k) (seq 1 16).
Lemma ex_new_is_key : is_key ex_new_key.
Proof. split; [reflexivity|apply bytesb_ok; reflexivity]. Qed.
Lemma ex_t_in_step : in_step ex_lc ex_tp.
Proof. destruct (ex_step_ok ex_tp ex_in_step eq_refl eq_refl eq_refl eq_refl) as [[A1 A2 A3 A4 A5] B C D E F G]; constructor; [constructor|..]; assumption. Qed.
Definition ex_k0 : pd := Eval vm_compute in state_of (cp_do (Send (ex_env 1330 []) (CKeyset 1 16 ex_new_key)) ex_lc).
(* the pair of ExLink: ten refreshes of both after the panel was asked to change the key *)
Definition ex_rotated := Eval vm_compute in duo 12 1340 ex_k0 ex_tp [] [] [].
Example C60_example :
  at_work ex_lc ex_tp /\ in_step ex_lc ex_tp /\ cmdq ex_lc = [] /\ has_scbk (fl ex_lc) = true /\ use_scbkd (fl ex_lc) = false /\ cap_sc ex_tp = true /\ is_key ex_new_key /\
  cp_send_command (ex_env 1330 []) ex_lc (CKeyset 1 16 ex_new_key) = (ex_k0, true, []) /\ takes_key ex_new_key (ex_env 1360 []) /\ in_session (ex_env 1360 []) ex_tp /\
  (let '(c, p, _, _) := ex_rotated in
   state c = SOnline /\ sc_active (fl c) = true /\ sc_active (fl p) = true /\ scbk (sc c) = ex_new_key /\ scbk (sc p) = ex_new_key /\ s_enc (sc p) = s_enc (sc c) /\ s_enc (sc c) <> s_enc (sc ex_lc)).
Proof.
  split; [exact ex_at_work|]. split; [exact ex_t_in_step|]. do 3 (split; [reflexivity|]). split; [vm_compute; reflexivity|]. split; [exact ex_new_is_key|].
  split; [vm_compute; reflexivity|]. split; [reflexivity|]. split; [intros _; vm_compute; discriminate|]. vm_compute. repeat split; discriminate.
Qed.

(* a device in install mode with a key of zeros, and a panel that has just failed to reach it with its own *)
Definition ex_pr_info : pdinfo := mkInfo 9600 101 (ex_flags false true) (mkId 1 2 12648430 305419896 65793) ex_caps (Some (zeros 16)) 0.
Definition ex_pr_p0 : pd := match pd_setup ex_pr_info 4 with Some p => set_has_cb true p | None => pd_zero end.
Definition ex_pr_c0 : pd := match new_pd 0 4 (ex_cinfo false true false false (Some ex_key)) with Some p => p | None => pd_zero end.
Definition ex_pr := Eval vm_compute in duo 9 1000 ex_pr_c0 ex_pr_p0 [] [] [].
Definition ex_prc : pd := Eval vm_compute in fst (fst (fst ex_pr)).
Definition ex_prp : pd := Eval vm_compute in snd (fst (fst ex_pr)).
Lemma ex_prc_reach : cp_reach ex_prc.
Proof.
  assert (E : ex_prc = state_of (crun_from (ex_cinfo false true false false (Some ex_key)) 4 (map (fun x => Update (ex_env (fst x) [snd x])) (snd (fst ex_pr))))) by (vm_compute; reflexivity).
  rewrite E. ex_crun.
Qed.
Lemma ex_prp_reach : pd_reach ex_prp.
Proof.
  assert (E : ex_prp = state_of (run_from ex_pr_info 4 (SetCallback true :: map (fun x => Refresh (ex_env (fst x) [snd x])) (snd ex_pr)))) by (vm_compute; reflexivity).
  rewrite E. apply run_reach; [| |vm_compute; reflexivity].
  - split; [|split; [reflexivity|apply bytesb_ok; reflexivity]]. simpl. repeat apply Forall_cons; try apply Forall_nil; split; simpl; unfold byte; lia.
  - repeat apply Forall_cons; try apply Forall_nil; try exact I; apply ex_env_typed; vm_compute; reflexivity.
Qed.
Example C60_provisions_example :
  may_shake ex_prc ex_prp /\ use_scbkd (fl ex_prc) = true /\ can_work ex_prc ex_prp /\ scbk (sc ex_prc) = ex_key /\ scbk (sc ex_prp) = zeros 16 /\ install (fl ex_prp) = true /\
  (let '(c, p, _, _) := duo 15 1180 ex_prc ex_prp [] [] [] in
   state c = SOnline /\ sc_active (fl c) = true /\ sc_active (fl p) = true /\ scbk (sc c) = ex_key /\ scbk (sc p) = ex_key /\ install (fl p) = false /\ use_scbkd (fl p) = false /\ s_enc (sc p) = s_enc (sc c)).
Proof.
  split.
  { constructor.
    - split; [exact ex_prc_reach|exact ex_prp_reach].
    - vm_compute. auto.
    - split; [vm_compute; reflexivity|]. ex_quiet.
    - vm_compute. repeat split; discriminate.
    - vm_compute. auto.
    - vm_compute. split; discriminate.
    - vm_compute. auto.
    - vm_compute. reflexivity. }
  split; [reflexivity|]. split.
  { constructor; try reflexivity.
    - vm_compute. discriminate.
    - constructor.
    - constructor. }
  do 3 (split; [vm_compute; reflexivity|]). vm_compute. repeat split.
Qed.

(** C60, refuted for a line that loses one answer: the device took the new key, the panel did not hear so and
    sends the command again; the device answers that it is in no session, and the panel gives it up.  From
    then on the two hold different keys.  The panel tries again after its waiting time: it does not accept
    the device, and nothing was lost this time. *)
Definition ex_h1 := Eval vm_compute in cp_do (Update (ex_env 1400 [])) ex_k0.
Definition ex_h2 := Eval vm_compute in cp_do (Update (ex_env 1400 [])) (state_of ex_h1).
Definition ex_h3 := Eval vm_compute in pd_do (Refresh (ex_env 1401 [said (outs_of ex_h2)])) ex_tp.
Definition ex_h4 := Eval vm_compute in duo 45 1601 (state_of ex_h2) (state_of ex_h3) [] [] [].
Definition ex_h5 := Eval vm_compute in duo 30 400000 (fst (fst (fst ex_h4))) (snd (fst (fst ex_h4))) [] [] [].
Theorem C60_lost_answer_refuted : exists c p e key c0 e1 e2 e3 c1 c2 p1 w1 w2,
  at_work c p /\ in_step c p /\ cmdq c = [] /\ has_scbk (fl c) = true /\ use_scbkd (fl c) = false /\ cap_sc p = true /\ is_key key /\
  cp_send_command e c (CKeyset 1 16 key) = (c0, true, []) /\
  cp_do (Update e1) c0 = Ok (c1, []) /\ cp_do (Update e2) c1 = Ok (c2, [OTx w1]) /\
  hears e3 w1 /\ takes_key key e3 /\ pd_do (Refresh e3) p = Ok (p1, [OCmd (CKeyset 1 16 key); OTx w2]) /\
  (let '(c4, p4, xs, _) := duo 45 1601 c2 p1 [] [] [] in
   state c4 = SOffline /\ sc_active (fl c4) = false /\ scbk (sc c4) <> scbk (sc p4) /\ scbk (sc p4) = key /\
   let '(c5, p5, _, _) := duo 30 400000 c4 p4 [] [] [] in
   state c5 = SOffline /\ sc_active (fl c5) = false /\ scbk (sc c5) <> scbk (sc p5)).
Proof.
  exists ex_lc, ex_tp, (ex_env 1330 []), ex_new_key, ex_k0, (ex_env 1400 []), (ex_env 1400 []), (ex_env 1401 [said (outs_of ex_h2)]),
    (state_of ex_h1), (state_of ex_h2), (state_of ex_h3), (said (outs_of ex_h2)), (said (outs_of ex_h3)).
  split; [exact ex_at_work|]. split; [exact ex_t_in_step|]. do 3 (split; [reflexivity|]). split; [vm_compute; reflexivity|]. split; [exact ex_new_is_key|].
  split; [vm_compute; reflexivity|]. split; [vm_compute; reflexivity|]. split; [vm_compute; reflexivity|].
  split; [apply arrives_hears; vm_compute; reflexivity|]. split; [reflexivity|]. split; [vm_compute; reflexivity|].
  assert (E4 : duo 45 1601 (state_of ex_h2) (state_of ex_h3) [] [] [] = ex_h4) by (vm_compute; reflexivity). rewrite E4.
  assert (E5 : duo 30 400000 (fst (fst (fst ex_h4))) (snd (fst (fst ex_h4))) [] [] [] = ex_h5) by (vm_compute; reflexivity).
  assert (S4 : ex_h4 = (fst (fst (fst ex_h4)), snd (fst (fst ex_h4)), snd (fst ex_h4), snd ex_h4)) by reflexivity.
  assert (P4 : state (fst (fst (fst ex_h4))) = SOffline /\ sc_active (fl (fst (fst (fst ex_h4)))) = false /\ scbk (sc (fst (fst (fst ex_h4)))) <> scbk (sc (snd (fst (fst ex_h4)))) /\ scbk (sc (snd (fst (fst ex_h4)))) = ex_new_key)
    by (vm_compute; repeat split; discriminate).
  rewrite S4. cbv iota beta. destruct P4 as (a1 & a2 & a3 & a4). split; [exact a1|]. split; [exact a2|]. split; [exact a3|]. split; [exact a4|].
  rewrite E5. vm_compute. repeat split; discriminate.
Qed.
Print Assumptions C60_lost_answer_refuted.
