(** What the theorems about a device that has gone silent speak of. *)
From Verif Require Import Base Rb RbProofs Types Phy Pd Cp CpCtx SpecRx SpecPd SpecCp SpecCpRun RxProofs.

(* occasions for refreshes, with a clock that does not go back, at most g ms apart, the first at most g ms
   after time t, and nothing arrives *)
Fixpoint paced (g t : Z) (es : list env) : Prop :=
  match es with
  | [] => True
  | e :: r => t <= e_now e <= t + g /\ heard (e_rx e) = [] /\ paced g (e_now e) r
  end.
(* time of the last one *)
Fixpoint last_time (t : Z) (es : list env) : Z := match es with [] => t | e :: r => last_time (e_now e) r end.
(* the calls of the stretch are the refreshes at these occasions *)
Definition refreshes (l : list cp_entry) (es : list env) : Prop := map ce_call l = map Update es.

(* the clock showed at most t in that call *)
Definition by_then (t : Z) (en : cp_entry) : Prop :=
  match ce_call en with Update e | Send e _ => e_now e <= t | _ => True end.

(* the longest that one command can occupy the entry: up to 50 ms until it is due, two refreshes to take it
   up and to send it, nine times 200 ms without an answer, eight times 800 ms in between and once more when
   the device said before that it is busy; every wait is noticed at most g ms late *)
Definition one_exchange (g : Z) : Z := 50 + 2 * g + 9 * (200 + g) + 9 * (800 + g).

(* at some moment of the stretch the entry was offline *)
Definition was_offline (l : list cp_entry) (q : pd) : Prop :=
  state q = SOffline \/ Exists (fun en => state (ce_pd en) = SOffline) l.

(* a change of the key is under way *)
Definition keying (p : pd) : Prop := state p = SOnline /\ phy_running p = true /\ cmd_id p = 117.
