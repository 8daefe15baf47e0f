(** What the theorems about a panel and a device that find each other speak of. *)
From Verif Require Import Base Rb RbProofs Types Phy Pd Cp CpCtx SpecRx SpecFrame SpecPd SpecCp SpecLink SpecApp SpecTalk SpecHand SpecRun.

(* one exchange on a line that loses nothing: the panel takes something up, sends it, the device gets it
   and answers, the panel gets the answer; c', p' are the ends then and o is what was seen of the panel's
   last refresh *)
Definition round (c p : pd) (K : pd -> pd -> list out -> Prop) : Prop :=
  forall e1 e2, env_typed e1 -> env_typed e2 -> 256 <= e_tx e2 ->
  moves (cp_do (Update e1) c) (fun c1 => says (cp_do (Update e2) c1) (fun c2 w1 =>
  forall e3, hears e3 w1 -> says (pd_do (Refresh e3) p) (fun p' w2 =>
  forall e4, hears e4 w2 -> exists c' o, cp_do (Update e4) c2 = Ok (c', o) /\ K c' p' o))).

(* the receive size that the device declares (function 10, two bytes, low byte first) *)
Definition declared_size (cs : list capent) : Z := c_comp (nth 10 cs (mkCap 0 0 0)) + 256 * c_num (nth 10 cs (mkCap 0 0 0)).

(* an event that can be reported; the device declared the contacts (1) or outputs (2) that it is about *)
Definition event_ready (act : bool) (p : pd) (ev : event) : Prop :=
  ev_in_range ev /\ (exists pay, event_payload (caps p) ev = Some pay /\ fits (tx_buf_size p) act pay) /\
  match ev with EStatus ty _ _ => (ty = 0 -> declared (caps p) 1) /\ (ty = 1 -> declared (caps p) 2) | _ => True end.

(* panel c and device p can work together; the device is at any point of its life, possibly in a
   session from before, but has nothing half received; act: a session is wanted *)
Record pair (act : bool) (c p : pd) : Prop := {
  mm_reach : cp_reach c /\ pd_reach p;
  mm_idle : rq_offline c = false /\ no_transfer c;
  mm_addr : address p = address c /\ 0 <= address c < 127;
  mm_quiet : quiet c /\ quiet p /\ broadcast (fl p) = false;
  mm_caps : length (caps c) = 17%nat;  (* the array has 17 entries *)
  mm_size : 69 <= tx_buf_size c /\ 69 <= tx_buf_size p;
  mm_rx : declared (caps p) 10 /\ 95 <= declared_size (caps p);
  mm_app : has_cb p = true;
  mm_cmds : Forall (good_cmd p) (cmdq c);
  mm_events : Forall (event_ready act p) (evq p)
}.
(* the panel is about to ask for identification *)
Definition starting (c : pd) : Prop := state c = SInit /\ phy_state c = PIdle /\ seqn c = -1.
Definition may_meet (act : bool) (c p : pd) : Prop := starting c /\ pair act c p.

(* both hold the same key, and the device declares the secure channel (function 9, lowest bit) *)
Definition same_key (c p : pd) : Prop :=
  has_scbk (fl c) = true /\ sc_disabled (fl c) = false /\ scbk (sc p) = scbk (sc c) /\ use_scbkd (fl p) = false /\
  declared (caps p) 9 /\ Z.testbit (c_comp (nth 9 (caps p) (mkCap 0 0 0))) 0 = true.
(* the panel was set up without a key; neither side insists on a secure channel *)
Definition no_key (c p : pd) : Prop := sc_disabled (fl c) = true /\ enforce (fl c) = false /\ enforce (fl p) = false.

Definition two_rounds (c p : pd) (K : pd -> pd -> Prop) : Prop := round c p (fun c1 p1 _ => round c1 p1 (fun c2 p2 _ => K c2 p2)).
Definition four_rounds (c p : pd) (K : pd -> pd -> Prop) : Prop := two_rounds c p (fun c2 p2 => two_rounds c2 p2 K).
