(** When a panel proves its key to a device, and how. *)
From Verif Require Import Base ListLemmas Crc SpecCrc Aes Rb RbProofs Types Sc Phy File Pd Cp CpCtx SpecRx SpecFrame SpecSec SpecSession SpecReply SpecAuth PdReply PdStep PdHist2
  SpecPd SpecCp SpecCpRun CpStep CpInv CpFacts CpSum CpWire CpHist ExPd ExCp DrawnCp ScryptCp.
From Coq Require Import ZifyBool ZifyNat.
Local Opaque RB_SIZE aes_ecb_encrypt enc1 osdp_mac scbk_default.

(** C76.  Whatever an entry transmits in the second step of a handshake, or while its command is SCRYPT, is the SCRYPT packet
    or a first part of it.  Its sixteen bytes are the number of the device and that of the panel encrypted with the key made
    from a base key and the number of the panel.  The device has proved that base key before: an intact reply with the
    right number came in answer to the challenge with the same number of the panel, it brought that number of the device,
    and its cryptogram was made with the same key.  The base key is SCBK-D only if the panel announces SCBK-D. *)
Theorem C76_proof_second : forall k n i h p e q o d,
  cp_runs k n i h p -> cp_call_typed (Update e) -> cp_do (Update e) p = Ok (q, o) ->
  state p = SScrypt \/ phy_running p = true /\ cmd_id p = 119 -> In (OTx d) o ->
  exists dflt m uid prnd rnd, (dflt = true -> use_scbkd (fl p) = true) /\
    let base := base_key dflt (sc p) in
    length prnd = 8%nat /\ rnd = cp_random (sc p) /\
    d = firstn m (255 :: handshake_frame (address p mod 128) (seq_next (seqn p)) 19 (if use_scbkd (fl p) then 0 else 1)
                           (119 :: enc1 (skey base rnd 130) (prnd ++ firstn 8 rnd))) /\
    (exists en e0 f, In en h /\ ce_call en = Update e0 /\ state (ce_pd en) = SChlng /\
      cp_heard e0 (ce_pd en) f /\ cp_accepted (ce_pd en) f /\
      carries f (118 :: uid ++ prnd ++ enc1 (skey base rnd 130) (firstn 8 rnd ++ prnd))).
Proof.
  intros k n i h p e q o d R T D S IN. destruct (cp_do_update e p q o D) as (rc & U). pose proof (cp_runs_inv _ _ _ _ _ R) as I.
  assert (ST : state p = SScrypt).
  { destruct S as [S|[RU S]]; [exact S|]. pose proof (ci_cmd p I RU) as K. unfold cmd_of_state in K.
    destruct (state p); try reflexivity; try contradiction; exfalso; lia. }
  destruct (scrypt_upd e p q rc o d I T U IN ST) as (m & W).
  destruct (key_proved k n i h p R (or_introl ST)) as (b & [(K1 & _ & _) DF (en & e0 & f & X1 & X2 & X3 & X4 & X5 & (_ & L & X6))]).
  exists b, m, (client_uid (sc p)), (pd_random (sc p)), (cp_random (sc p)). split; [exact DF|]. cbv zeta. split; [exact L|]. split; [reflexivity|]. split.
  - unfold own_value in W. rewrite K1 in W. rewrite (firstn_all2 (n := 8) (pd_random (sc p))) in W by lia. exact W.
  - exists en, e0, f. exact (conj X1 (conj X2 (conj X3 (conj X4 (conj X5 X6))))).
Qed.
Print Assumptions C76_proof_second.

(* an entry to which the device has just proved its key *)
Definition ex_proved : pd := state_of (crun_from (ex_cinfo false false false false (Some ex_key)) 4
  (exch 1000 [reply 0 ex_pdid] ++ exch 1100 [reply 1 ex_pdcap] ++ exch 1200 [ex_ccrypt 2 ex_key 1])).

Example C76_example :
  let r := crun ex_proved (exch 1300 []) in
  let rnd := cp_random (sc ex_proved) in
  state ex_proved = SScrypt /\
  outs_of r = [OTx (255 :: handshake_frame 101 3 19 1
    (119 :: enc1 (skey ex_key rnd 130) (pd_random (sc ex_proved) ++ rnd)))].
Proof. vm_compute. auto. Qed.

(* and one to which the device sent a cryptogram made with another key: no SCRYPT packet *)
Example C76_example_wrong :
  let p := state_of (crun_from (ex_cinfo false false false false (Some ex_key)) 4
    (exch 1000 [reply 0 ex_pdid] ++ exch 1100 [reply 1 ex_pdcap] ++ exch 1200 [ex_ccrypt 2 (repeat 7 16) 1])) in
  state p <> SScrypt.
Proof. vm_compute. discriminate. Qed.
