(** Property theorem C44: every valid packet is answered, inside and outside a session, with the exact list of exceptions. *)
From Verif Require Import Base ListLemmas Crc SpecCrc Aes Rb RbProofs Types Sc Phy File Pd SpecRx SpecFrame
  SpecSec SpecCmd SpecApp SpecPd RxProofs PdRx PdCore PhyTx PdTx PdReply PdStep PdWire PdFwd PdRun PdSpeak PdPlain PdSec PdRefuse PdFacts
  PdKinds PdCase PdApp PdTrace PdHist PdHist2 PdAnswer PdMore ExPd PropsPd2 SpecSay PdAll.
From Coq Require Import ZifyBool ZifyNat.
Local Opaque RB_SIZE.

(** C44 (part that holds).  A packet for the device with right check bytes and an acceptable number, plain or with any security block, in
    any state of the device, is answered in the same refresh by exactly one complete and intact packet with its number.  The only exceptions:
    it leaves no room for a command, it is a file fragment that the application did not take, or it announces a receive buffer of 1 to 68
    bytes; then nothing is sent.  Missing for the full property: these exceptions (C44_silent_refuted), a panel that announced 69 to 164
    bytes before, and refreshes that do not return (C43). *)
Theorem C44_every_partial : forall e p f rest q o,
  pd_reach p -> call_typed (Refresh e) -> next_frame e p f rest -> f_intact f -> f_mine (address p) f -> seq_ok (seqn p) (f_seq f) ->
  says_room 165 p -> 256 <= e_tx e -> pd_refresh e p = Ok (q, o) ->
  (exists ob mk w, o = ob ++ [OTx (mk ++ w)] /\ (forall x, ~ In (OTx x) ob) /\ (mk = [] \/ mk = [255]) /\ bytes w /\ f_shape true w /\
     f_crc w = true /\ crc_valid w /\ nth 1 w 0 = answer_addr p f /\ f_seq w = f_seq f) \/
  ((forall x, ~ In (OTx x) o) /\
   (cmd_room f <= 0 \/ (cmd_code f = 124 /\ ~ taken e o) \/ (cmd_code f = 123 /\ 0 < peer_rx q < 69))).
Proof.
  intros e p f rest q o R T N V M S PX TX H.
  destruct (every_answered e p f rest q o (env_typed e T) (reach_inv p R) N V M S PX TX H)
    as [(ob & x & -> & NT & mk & w & -> & A)|[(C & ->)|[(C & D & NT)|(C & D & NT)]]].
  - left. exists ob, mk, w. split; [reflexivity|]. split; [exact NT|]. exact A.
  - right. split; [intros x []|auto].
  - right. split; [exact NT|auto].
  - right. split; [exact NT|auto].
Qed.
Print Assumptions C44_every_partial.

(* a poll inside a session, and an announcement of 200 bytes outside of one *)
Example C44_every_example :
  let f := mac_frame (sc ex_pd_sc) 101 2 [96] in
  let e := ex_env 1200 [f] in
  let g := plain_frame 101 0 [123; 200; 0] in
  let d := ex_env 1000 [g] in
  next_frame e ex_pd_sc f [] /\ f_intact f /\ f_mine (address ex_pd_sc) f /\ seq_ok (seqn ex_pd_sc) (f_seq f) /\ says_room 165 ex_pd_sc /\
  session_open e ex_pd_sc = true /\ cmd_room f = 1 /\ cmd_code f = 96 /\ length (outs_of (pd_refresh e ex_pd_sc)) = 1%nat /\
  cmd_room g = 3 /\ cmd_code g = 123 /\ outs_of (pd_refresh d ex_pd) = [OTx (plain_frame 229 0 [64])].
Proof.
  cbv zeta. split; [ex_frame|]. split; [apply intact_test; vm_compute; reflexivity|].
  split; [left; vm_compute; reflexivity|]. split; [right; right; vm_compute; reflexivity|]. split; [left; vm_compute; reflexivity|].
  repeat (split; [vm_compute; reflexivity|]). vm_compute; reflexivity.
Qed.
