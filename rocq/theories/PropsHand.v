(** Property theorem C07: the handshake of a secure channel. *)
From Verif Require Import Base ListLemmas SpecCrc Aes AesProofs Rb RbProofs Types Sc ScProofs Phy File Pd Cp CpCtx PdRun SpecRx SpecFrame SpecSec SpecSession
  SpecPd SpecCp SpecCpRun SpecLink SpecHand RxProofs MacProofs PdRx PdTx PdStep PdReply CpTx CpRx CpInv LinkProofs LinkStep CpSend Hand Shake ExPd ExCp ExLink.
From Coq Require Import ZifyBool ZifyNat.
Ltac Zify.zify_post_hook ::= Z.div_mod_to_equations.
Local Opaque aes_ecb_encrypt aes_cbc_encrypt aes_cbc_decrypt mac_of RB_SIZE osdp_mac enc1 osdp_encrypt encrypt_data.

(** C07.  Whatever random numbers both sides choose: the panel's challenge is answered, the panel
    accepts the device's cryptogram and sends its own, the device accepts that and turns the channel
    on, the panel turns it on as well, and then keys, chaining value and sequence number agree. *)
Theorem C07_handshake : forall c p e1 e2,
  may_shake c p -> env_typed e1 -> env_typed e2 -> 256 <= e_tx e2 ->
  moves (cp_do (Update e1) c) (fun c1 => says (cp_do (Update e2) c1) (fun c2 w1 =>
  forall e3, hears e3 w1 -> says (pd_do (Refresh e3) p) (fun p1 w2 =>
  forall e4, hears e4 w2 -> moves (cp_do (Update e4) c2) (fun c3 =>
  forall e5 e6, env_typed e5 -> env_typed e6 -> 256 <= e_tx e6 ->
  moves (cp_do (Update e5) c3) (fun c4 => says (cp_do (Update e6) c4) (fun c5 w3 =>
  forall e7, hears e7 w3 -> says (pd_do (Refresh e7) p1) (fun p2 w4 =>
  forall e8, hears e8 w4 -> exists c6 o, cp_do (Update e8) c5 = Ok (c6, o) /\
  in_step c6 p2 /\ quiet c6 /\ quiet p2 /\ state c6 = (if use_scbkd (fl c) then SSetScbk else SOnline)))))))).
Proof.
  intros c p e1 e2 M T1 T2 X2. pose proof (shake_all c p e1 e2 M T1 T2 X2) as H.
  destruct H as (c1 & D1 & c2 & w1 & D2 & H). exists c1. split; [exact D1|]. exists c2, w1. split; [exact D2|]. intros e3 H3.
  destruct (H e3 H3) as (p1 & w2 & D3 & G). exists p1, w2. split; [exact D3|]. intros e4 H4. destruct (G e4 H4) as (c3 & D4 & F). exists c3. split; [exact D4|].
  intros e5 e6 T5 T6 X6. destruct (F e5 e6 T5 T6 X6) as (c4 & D5 & c5 & w3 & D6 & E). exists c4. split; [exact D5|]. exists c5, w3. split; [exact D6|]. intros e7 H7.
  destruct (E e7 H7) as (p2 & w4 & D7 & B). exists p2, w4. split; [exact D7|]. intros e8 H8. destruct (B e8 H8) as (c6 & o & D8 & R1 & R2 & R3 & R4 & _). exists c6, o. auto.
Qed.
Print Assumptions C07_handshake.

(* panel and device of the line in ExLink, identified and about to shake hands; six rounds later they are in step *)
Definition ex_meet := Eval vm_compute in duo 6 1000 ex_c0 ex_p0 [] [] [].
Definition ex_mc : pd := Eval vm_compute in fst (fst (fst ex_meet)).
Definition ex_mp : pd := Eval vm_compute in snd (fst (fst ex_meet)).
Lemma ex_mc_reach : cp_reach ex_mc.
Proof.
  assert (E : ex_mc = state_of (crun_from ex_cinfo_sc 4 (map (fun x => Update (ex_env (fst x) [snd x])) (snd (fst ex_meet))))) by (vm_compute; reflexivity).
  rewrite E. ex_crun.
Qed.
Lemma ex_mp_reach : pd_reach ex_mp.
Proof.
  assert (E : ex_mp = state_of (run_from (ex_info true (Some ex_key)) 4 (map (fun x => Refresh (ex_env (fst x) [snd x])) (snd ex_meet)))) by (vm_compute; reflexivity).
  rewrite E. apply run_reach; [apply ex_info_typed; exact ex_key_ok| |vm_compute; reflexivity].
  repeat apply Forall_cons; try apply Forall_nil; try exact I; apply ex_env_typed; vm_compute; reflexivity.
Qed.
Example C07_example : may_shake ex_mc ex_mp /\
  (let '(c, p, _, _) := duo 6 1120 ex_mc ex_mp [] [] [] in
   state c = SOnline /\ sc_active (fl c) = true /\ sc_active (fl p) = true /\ sc p <> sc ex_mp /\ s_enc (sc p) = s_enc (sc c) /\ r_mac (sc p) = r_mac (sc c)).
Proof.
  split; [|vm_compute; repeat split; discriminate].
  constructor.
  - split; [exact ex_mc_reach|exact ex_mp_reach].
  - vm_compute. auto.
  - split; [vm_compute; reflexivity|]. repeat (split; [vm_compute; first [reflexivity|repeat split; lia]|]). apply bytesb_ok. vm_compute. reflexivity.
  - vm_compute. repeat split; discriminate.
  - vm_compute. auto.
  - vm_compute. split; discriminate.
  - vm_compute. auto.
  - vm_compute. reflexivity.
Qed.

(** C07.  A device in install mode that once answered a challenge under SCBK-D goes on using SCBK-D.
    A panel that holds the same SCBK and uses it then refuses the device's cryptogram. *)
Definition ex_inst_info : pdinfo := mkInfo 9600 101 (ex_flags false true) (mkId 1 2 12648430 305419896 65793) ex_caps (Some ex_key) 0.
Definition ex_inst_calls : list pd_call := [Refresh (ex_env 1000 [scb_frame 101 0 17 [0] (118 :: ex_cp_rnd)])].
Definition ex_ip0 : pd := Eval vm_compute in state_of (run_from ex_inst_info 4 ex_inst_calls).
Definition ex_inst := Eval vm_compute in duo 6 2000 ex_c0 ex_ip0 [] [] [].
Definition ex_ic : pd := Eval vm_compute in fst (fst (fst ex_inst)).
Definition ex_ip : pd := Eval vm_compute in snd (fst (fst ex_inst)).
Lemma ex_ic_reach : cp_reach ex_ic.
Proof.
  assert (E : ex_ic = state_of (crun_from ex_cinfo_sc 4 (map (fun x => Update (ex_env (fst x) [snd x])) (snd (fst ex_inst))))) by (vm_compute; reflexivity).
  rewrite E. ex_crun.
Qed.
Lemma ex_ip_reach : pd_reach ex_ip.
Proof.
  assert (E : ex_ip = state_of (run_from ex_inst_info 4 (ex_inst_calls ++ map (fun x => Refresh (ex_env (fst x) [snd x])) (snd ex_inst)))) by (vm_compute; reflexivity).
  rewrite E. apply run_reach; [| |vm_compute; reflexivity].
  - split; [|exact ex_key_ok]. simpl. repeat apply Forall_cons; try apply Forall_nil; split; simpl; unfold byte; lia.
  - repeat apply Forall_cons; try apply Forall_nil; try exact I; apply ex_env_typed; vm_compute; reflexivity.
Qed.
Definition ex_is1 := Eval vm_compute in cp_do (Update (ex_env 2120 [])) ex_ic.
Definition ex_is2 := Eval vm_compute in cp_do (Update (ex_env 2140 [])) (state_of ex_is1).
Definition ex_is3 := Eval vm_compute in pd_do (Refresh (ex_env 2140 [said (outs_of ex_is2)])) ex_ip.
Definition ex_is4 := Eval vm_compute in cp_do (Update (ex_env 2160 [said (outs_of ex_is3)])) (state_of ex_is2).
Theorem C07_same_scbk_refuted : exists c p e1 e2 e3 e4 c1 c2 p1 c3 w1 w2 o,
  cp_reach c /\ pd_reach p /\ scbk (sc c) = scbk (sc p) /\ use_scbkd (fl c) = false /\ state c = SChlng /\ phy_state c = PIdle /\
  cp_do (Update e1) c = Ok (c1, []) /\ cp_do (Update e2) c1 = Ok (c2, [OTx w1]) /\
  heard (e_rx e3) = w1 /\ pd_do (Refresh e3) p = Ok (p1, [OTx w2]) /\
  heard (e_rx e4) = w2 /\ cp_do (Update e4) c2 = Ok (c3, o) /\ state c3 = SOffline.
Proof.
  exists ex_ic, ex_ip, (ex_env 2120 []), (ex_env 2140 []), (ex_env 2140 [said (outs_of ex_is2)]), (ex_env 2160 [said (outs_of ex_is3)]),
    (state_of ex_is1), (state_of ex_is2), (state_of ex_is3), (state_of ex_is4), (said (outs_of ex_is2)), (said (outs_of ex_is3)), (outs_of ex_is4).
  split; [exact ex_ic_reach|]. split; [exact ex_ip_reach|].
  repeat (split; [vm_compute; reflexivity|]). vm_compute; reflexivity.
Qed.
Print Assumptions C07_same_scbk_refuted.
