(** How long a session of a device lasts after a packet, and KEEPACTIVE. *)
From Verif Require Import Base ListLemmas Crc SpecCrc Aes Rb RbProofs Types Sc Phy File Pd SpecRx SpecFrame SpecSec PdReply PdStep
  SpecPd SpecApp PdRun PdRefuse PdKinds PdTrace PdHist ExPd PropsPd2.
From Coq Require Import ZifyBool ZifyNat.
Local Opaque RB_SIZE.

(** C72 (part that holds).  What a device receives in one refresh, KEEPACTIVE or anything else, keeps a session open for at
    most 8 s: if the device would work in a session later than that, it would have done so without this refresh. *)
Theorem C72_limit_partial : forall i n h p e q o e2,
  pd_runs i n h p -> call_typed (Refresh e) -> pd_refresh e p = Ok (q, o) ->
  session_open e2 q = true -> e_now e2 - e_now e > 8000 -> session_open e2 p = true.
Proof.
  intros i n h p e q o e2 R T H S L. unfold session_open in S. apply andb_true_iff in S as [S1 S2].
  destruct (stamp_step e p q o (run_step e i n h p q o R T H) S1) as [(SO & E)|(E & _)]; [|lia].
  unfold session_open in *. apply andb_true_iff in SO as [S3 _]. rewrite S3, <- E, S2. reflexivity.
Qed.
Print Assumptions C72_limit_partial.

(** C72 is false: a device answers a KEEPACTIVE for 60 s with ACK, in its session.  After 8.001 s without another
    packet the session is closed all the same; without KEEPACTIVE it would not have been closed earlier. *)
Theorem C72_keepactive_refuted : exists p e q o e2,
  pd_reach p /\ call_typed (Refresh e) /\ session_open e p = true /\
  e_rx e = [mac_frame (sc p) 101 2 [167; 60000 mod 256; 60000 / 256]] /\ pd_refresh e p = Ok (q, o) /\
  (exists mac, o = [OTx ([83; 229; 14; 0; 14; 2; 22] ++ 64 :: mac)] /\ zlen mac = 6) /\
  e_now e2 - e_now e = 8001 /\ session_open e2 q = false.
Proof.
  exists ex_pd_sc, (ex_env 1200 [mac_frame (sc ex_pd_sc) 101 2 [167; 60000 mod 256; 60000 / 256]]). do 2 eexists. exists (ex_env 9201 []).
  split; [exact (proj1 ex_pd_sc_reach)|]. split; [ex_typed|]. split; [reflexivity|]. split; [reflexivity|]. split; [ex_run|].
  split; [|split; vm_compute; reflexivity].
  exists [106; 235; 54; 18; 28; 21]. split; [vm_compute; reflexivity|reflexivity].
Qed.
Print Assumptions C72_keepactive_refuted.

(* the session of ex_pd_sc was used at 1100; a refresh at 1200 with KEEPACTIVE for 60 s leaves it open up to 9200 *)
Example C72_example :
  let q := state_of (pd_refresh (ex_env 1200 [mac_frame (sc ex_pd_sc) 101 2 [167; 96; 234]]) ex_pd_sc) in
  session_open (ex_env 9100 []) ex_pd_sc = true /\ session_open (ex_env 9101 []) ex_pd_sc = false /\
  session_open (ex_env 9200 []) q = true /\ session_open (ex_env 9201 []) q = false.
Proof. vm_compute. auto. Qed.
