(** Every command that a device's application is called with was received. *)
From Verif Require Import Base ListLemmas Crc SpecCrc Aes Rb RbProofs Types Sc Phy File Pd SpecRx SpecFrame SpecSec SpecReply PdReply PdStep
  SpecPd SpecApp PdRun PdRefuse PdKinds PdTrace ExPd PropsPd2 SpecHeard HeardPd.
From Coq Require Import ZifyBool ZifyNat.
Local Opaque RB_SIZE.

(** C71.  If the command callback is called in a refresh, then a packet arrived that is intact, is addressed to this device
    (or to all) and has an acceptable number, and the calls are the first ones of the commands that this one packet asks
    for, in their order and with exactly the fields in it. *)
Theorem C71_asked : forall e p q o,
  pd_reach p -> call_typed (Refresh e) -> pd_refresh e p = Ok (q, o) -> asked o <> [] ->
  exists l cs k, heard_command e p l /\ asks l cs /\ asked o = firstn k cs.
Proof. intros e p q o R T H N. exact (refresh_asked e p q o (env_typed e T) (reach_inv p R) H N). Qed.
Print Assumptions C71_asked.

(* an output command with two records, in clear; one in a session with MAC; the second record of the third names an output
   that the device does not have *)
Example C71_example :
  let m := [104; 1; 2; 44; 1; 0; 5; 3; 0] in
  let cs := [COutput 1 2 300; COutput 0 5 3] in
  let m2 := [104; 1; 2; 44; 1; 7; 5; 3; 0] in
  asks m cs /\
  asked (outs_of (pd_refresh (ex_env 1000 [plain_frame 101 0 m]) ex_pd)) = cs /\
  asked (outs_of (pd_refresh (ex_env 1200 [mac_frame (sc ex_pd_sc) 101 2 m]) ex_pd_sc)) = cs /\
  asked (outs_of (pd_refresh (ex_env 1000 [plain_frame 101 0 m2]) ex_pd)) = firstn 1 cs /\
  asked (outs_of (pd_refresh (ex_env 1000 [plain_frame 102 0 m]) ex_pd)) = [].
Proof.
  cbv zeta. split.
  - apply (As_out [[1; 2; 44; 1]; [0; 5; 3; 0]]). constructor; [apply (RO 1 2 44 1)|]. constructor; [apply (RO 0 5 3 0)|constructor].
  - split; [vm_compute; reflexivity|]. split; [vm_compute; reflexivity|]. split; vm_compute; reflexivity.
Qed.
