(** What the theorems about lost packets speak of. *)
From Verif Require Import Base Rb RbProofs Types Phy Pd Cp CpCtx SpecRx SpecFrame SpecPd SpecCp SpecLink SpecApp SpecTalk.

(* a refresh during which no byte at all arrives *)
Definition nothing (e : env) : Prop := env_typed e /\ heard (e_rx e) = [].

(* the device has at most one event to tell, and that fits into a reply outside a session *)
Definition tells_one (p : pd) : Prop :=
  evq p = [] \/ exists ev pay, evq p = [ev] /\ event_payload (caps p) ev = Some pay /\ ev_in_range ev /\ fits (tx_buf_size p) false pay.

(* panel and device are connected outside a session, the panel is online and is about to poll: 50 ms have
   passed since the last packet, nothing is queued *)
Record may_poll (e : env) (c p : pd) : Prop := {
  mp_conn : connected c p;
  mp_reach : pd_reach p;
  mp_online : state c = SOnline /\ rq_offline c = false /\ rq_event c = false;
  mp_due : cmdq c = [] /\ no_transfer c /\ e_now e - tstamp c > 50;
  mp_plain : sc_active (fl c) = false /\ enforce (fl p) = false
}.
