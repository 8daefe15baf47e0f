(** What the theorems about a change of the key speak of. *)
From Verif Require Import Base Rb RbProofs Types Phy Pd Cp CpCtx SpecRx SpecFrame SpecPd SpecCp SpecLink SpecApp SpecTalk SpecHand SpecRun SpecBoot.

(* the application of the device takes the key as it is *)
Definition takes_key (key : list Z) (e : env) : Prop := e_cb e 0 (CKeyset 1 16 key) = (0, CKeyset 1 16 key).

(* one exchange on a line that loses nothing, as round in SpecBoot, in which the device gets a new key: its
   session has not timed out, its application is called once, for this key, and takes it *)
Definition key_round (key : list Z) (c p : pd) (K : pd -> pd -> list out -> Prop) : Prop :=
  forall e1 e2, env_typed e1 -> env_typed e2 -> 256 <= e_tx e2 ->
  moves (cp_do (Update e1) c) (fun c1 => says (cp_do (Update e2) c1) (fun c2 w1 =>
  forall e3, hears e3 w1 -> in_session e3 p -> takes_key key e3 ->
  exists p' w2, pd_do (Refresh e3) p = Ok (p', [OCmd (CKeyset 1 16 key); OTx w2]) /\
  forall e4, hears e4 w2 -> exists c' o, cp_do (Update e4) c2 = Ok (c', o) /\ K c' p' o)).

(* both store this key, and use it: neither SCBK-D nor install mode *)
Definition share (key : list Z) (c p : pd) : Prop :=
  scbk (sc c) = key /\ scbk (sc p) = key /\ use_scbkd (fl c) = false /\ use_scbkd (fl p) = false /\ install (fl p) = false.

(* a key: 16 bytes *)
Definition is_key (key : list Z) : Prop := length key = 16%nat /\ bytes key.

(* besides what the handshake needs: the panel was set up with a key; the device has an application; what
   waits in the queues can be served inside a session *)
Record can_work (c p : pd) : Prop := {
  cw_key : has_scbk (fl c) = true;
  cw_file : no_transfer c;
  cw_size : 95 <= tx_buf_size c;
  cw_app : has_cb p = true;
  cw_cmds : Forall (good_cmd p) (cmdq c);
  cw_events : Forall (good_event true c p) (evq p)
}.
