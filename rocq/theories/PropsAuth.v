(** Property theorem C52: where the events of a session come from. *)
From Verif Require Import Base ListLemmas Crc SpecCrc Aes Rb RbProofs Types Sc Phy File Pd Cp CpCtx CpApi SpecRx SpecFrame
  SpecSec SpecSession SpecReply SpecAuth SpecPd SpecCp SpecCpRun RxProofs PdRx PdCore PhyTx PdTx PdReply PdStep PdHist2 CpTx CpRx CpStep CpInv CpEdge CpFacts
  CpSum CpWire CpHist CpTime CpFwd CpRetry CpSeq CpQueue CpReply CpAuth ExPd ExCp PropsCp2.
From Coq Require Import ZifyBool ZifyNat.
Local Opaque RB_SIZE aes_ecb_encrypt enc1 osdp_mac.

(** C52.  An event (not a notification of the library itself) of an online entry with an open session
    was heard in this very refresh, in an intact reply with the number of the command; the reply has a
    security block and either the right MAC under the keys and the chaining value of the session, or a
    block type of the handshake.  That the latter is possible is C52_forged_refuted. *)
Theorem C52_authentic_partial : forall e p q o ev,
  cp_reach p -> env_typed e -> cp_do (Update e) p = Ok (q, o) -> state p = SOnline -> sc_active (fl p) = true ->
  In (OEv (idx p) ev) o -> is_notif ev = false ->
  exists f l, cp_heard e p f /\ cp_accepted p f /\ f_says true (s_enc (sc p)) (c_mac (sc p)) f l /\ reports l ev /\ f_scb f = true /\
    (17 <= f_sctype f <= 20 \/ (21 <= f_sctype f <= 24 /\ mac_right (s_mac1 (sc p)) (s_mac2 (sc p)) (c_mac (sc p)) f)).
Proof. intros e p q o ev R T D S A IN N. exact (event_genuine e p q o ev R T D S A IN N). Qed.
Print Assumptions C52_authentic_partial.

(* a keypad report in the session, with the right MAC, and with one bit of the MAC changed *)
Definition ex_sec_key (p : pd) : list Z :=
  secure_frame 229 1 24 83 [0; 2; 49; 50] (s_enc (sc p)) (s_mac1 (sc p)) (s_mac2 (sc p)) (c_mac (sc p)).
Definition ex_sec_poll : pd := state_of (crun ex_cp_sc [Update (ex_env 2000 []); Update (ex_env 2000 [])]).
Definition ex_sec_bad : list Z :=
  with_crc (firstn 25 (ex_sec_key ex_sec_poll) ++ [Z.lxor (getb (ex_sec_key ex_sec_poll) 25) 1] ++ firstn 2 (skipn 26 (ex_sec_key ex_sec_poll))).
Example C52_example :
  state ex_sec_poll = SOnline /\ sc_active (fl ex_sec_poll) = true /\
  filter is_report (outs_of (crun ex_sec_poll [Update (ex_env 2010 [ex_sec_key ex_sec_poll])])) = [OEv 0 (EKey 0 2 [49; 50])] /\
  filter is_report (outs_of (crun ex_sec_poll [Update (ex_env 2010 [ex_sec_bad])])) = [].
Proof. vm_compute. auto. Qed.
