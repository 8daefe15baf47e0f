(** Property theorem C64: what can be read on the line while a secure session is open. *)
From Verif Require Import Base ListLemmas Crc SpecCrc Aes Rb RbProofs Types Sc Phy File Pd Cp CpCtx SpecRx SpecFrame SpecSec SpecSession SpecCmd SpecApp SpecPd
  PdStep PdFwd PdRun PdRefuse ExPd PropsPd2 SpecCp SpecCpRun CpInv CpHist CpWire ExCp ExLink SpecSecret Secret SecretCp PropsTalk PropsRun PropsKey.
Local Opaque aes_ecb_encrypt aes_cbc_encrypt aes_cbc_decrypt mac_of RB_SIZE osdp_mac enc1 osdp_encrypt encrypt_data.

(** C64 (device).  The session is open and the next packet, whatever it is, does not carry the number 0 (which
    ends the session, C18).  Whatever the device then puts on the line is (the beginning of) an answer with its
    data encrypted and a MAC, an answer with a MAC that consists of a bare reply code, a step of a new handshake,
    or a NAK in clear, and with the last one the session is over. *)
Theorem C64_device : forall e p f rest q o d,
  pd_reach p -> call_typed (Refresh e) -> next_frame e p f rest -> session_open e p = true -> f_seq f <> 0 ->
  pd_refresh e p = Ok (q, o) -> In (OTx d) o ->
  exists mk w k, d = firstn k (mk ++ w) /\ (mk = [] \/ mk = [255]) /\
    (sealed_answer (sc q) w \/ handshake_answer (sc q) w \/ (clear_nak w /\ sc_active (fl q) = false)).
Proof.
  intros e p f rest q o d R T. exact (device_says e p f rest q o d (PdRun.env_typed e T) (reach_inv p R)).
Qed.
Print Assumptions C64_device.

Definition ex_card : event := ECard 0 1 0 16 [171; 205].
Definition ex_card_frame : list Z := Eval vm_compute in mac_frame (sc ex_pd_sc) 101 2 [96].
Definition ex_card_pd : pd := Eval vm_compute in state_of (run ex_pd_sc [Notify ex_card]).
(* a card waits; the poll is answered with a packet in which its number cannot be found *)
Example C64_device_example :
  let e := ex_env 1200 [ex_card_frame] in
  session_open e ex_card_pd = true /\ next_frame e ex_card_pd ex_card_frame [] /\ f_seq ex_card_frame = 2 /\
  exists w, outs_of (pd_refresh e ex_card_pd) = [OTx w] /\ nth 6 w 0 = 24 /\ firstn 2 (skipn 12 w) <> [171; 205].
Proof. cbv zeta. split; [reflexivity|]. split; [ex_frame|]. split; [reflexivity|]. eexists. split; [vm_compute; reflexivity|]. vm_compute. split; [reflexivity|discriminate]. Qed.

(** C64 (panel).  Whatever a panel puts on the line while the session is open is (the beginning of) a packet with
    a MAC under the keys of the session and, unless the command is a bare code, with its data encrypted.  And a
    packet with a base key (KEYSET) is sent in no other state. *)
Theorem C64_panel : forall e p q o d,
  cp_reach p -> env_typed e -> cp_do (Update e) p = Ok (q, o) -> In (OTx d) o ->
  exists w k code data, d = firstn k (255 :: w) /\
    (sc_active (fl p) = true ->
       w = secure_frame (address p mod 128) (seq_next (seqn p)) (if zlen data >? 0 then 23 else 21) code data
             (s_enc (sc p)) (s_mac1 (sc p)) (s_mac2 (sc p)) (r_mac (sc p))) /\
    (sc_active (fl p) = false -> code <> 117 /\
       (w = plain_frame (address p mod 128) (seq_next (seqn p)) (code :: data) \/
        exists ty b, (ty = 17 \/ ty = 19) /\ (b = 0 \/ b = 1) /\ w = handshake_frame (address p mod 128) (seq_next (seqn p)) ty b (code :: data))).
Proof.
  intros e p q o d R T D IN. destruct (cp_do_update _ _ _ _ D) as (rc & U).
  destruct (panel_says e p q rc o d (cp_reach_inv _ R) T U IN) as (w & k & code & data & E & F & K).
  exists w, k, code, data. split; [exact E|]. unfold cmd_frame in F. cbv zeta in F. split; intros A; rewrite A in F; [exact F|].
  split; [auto|]. destruct (in_sc_handshake false (cmd_id p)); [right; exact F|left; exact F].
Qed.
Print Assumptions C64_panel.

(* the panel of ExLink sends a new key: a packet with block 23 *)
Definition ex_k1 : pd := Eval vm_compute in state_of (cp_do (Update (ex_env 1340 [])) ex_k0).
Example C64_panel_example :
  sc_active (fl ex_k1) = true /\ exists w, outs_of (cp_do (Update (ex_env 1340 [])) ex_k1) = [OTx w] /\ nth 7 w 0 = 23 /\ nth 8 w 0 = 117.
Proof. split; [reflexivity|]. eexists. split; [vm_compute; reflexivity|]. vm_compute. auto. Qed.

(** Why the number 0 is excepted in C64_device: a plain packet with this number ends the session of a device, and
    when the device does not insist on sessions the card that waits is read out in clear. *)
Definition ex_open_calls : list pd_call := ex_hs ++ [Notify ex_card].
Theorem C64_restart_refuted : exists p e f q o,
  pd_reach p /\ call_typed (Refresh e) /\ next_frame e p f [] /\ session_open e p = true /\ f = plain_frame 101 0 [96] /\
  evq p = [ECard 0 1 0 16 [171; 205]] /\ pd_refresh e p = Ok (q, o) /\ o = [OTx (plain_frame 229 0 [80; 0; 1; 16; 0; 171; 205])].
Proof.
  exists (state_of (run_from (ex_info false (Some ex_key)) 4 ex_open_calls)), (ex_env 1200 [plain_frame 101 0 [96]]), (plain_frame 101 0 [96]). do 2 eexists.
  split.
  { apply run_reach; [apply ex_info_typed; exact ex_key_ok| |vm_compute; reflexivity].
    repeat apply Forall_cons; try apply Forall_nil; try exact I; try (apply ex_env_typed; vm_compute; reflexivity).
    split; [apply bytesb_ok; reflexivity|vm_compute; discriminate]. }
  split; [ex_typed|]. split; [ex_frame|]. split; [vm_compute; reflexivity|]. split; [reflexivity|]. split; [vm_compute; reflexivity|].
  split; [ex_run|]. vm_compute. reflexivity.
Qed.
Print Assumptions C64_restart_refuted.
