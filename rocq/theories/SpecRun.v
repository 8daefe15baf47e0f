(** A panel and a device at work on a line that loses nothing: any number of refreshes of either side,
    in any order, with commands and events handed in at any time. *)
From Verif Require Import Base Rb RbProofs Types Phy Pd Cp CpCtx SpecRx SpecFrame SpecPd SpecCp SpecLink SpecApp SpecTalk SpecHand SpecLost.

(* both ends and the line: what is on its way to the device, what is on its way to the panel, and when
   the panel transmitted last *)
Record net := mkNet { n_c : pd; n_p : pd; n_at : Z; to_p : list Z; to_c : list Z }.

Inductive action :=
| AUpdate (e : env)          (* osdp_cp_refresh, the part for this device *)
| ARefresh (e : env)         (* osdp_pd_refresh *)
| ANotify (ev : event)       (* osdp_pd_notify_event *)
| ASend (e : env) (k : cmd). (* osdp_cp_send_command *)

(* the bytes put on the line *)
Definition on_wire (o : list out) : list Z := flat_map (fun x => match x with OTx w => w | _ => [] end) o.

(* what arrived is not on its way any more *)
Definition left_over (e : env) (w : list Z) : list Z := match heard (e_rx e) with [] => w | _ => [] end.

Definition act (a : action) (s : net) : res (net * list out) :=
  match a with
  | AUpdate e =>
      do x <- cp_do (Update e) (n_c s) ;
      let w := on_wire (snd x) in
      Ok (mkNet (fst x) (n_p s) (match w with [] => n_at s | _ => e_now e end) (to_p s ++ w) (left_over e (to_c s)), snd x)
  | ARefresh e =>
      do x <- pd_do (Refresh e) (n_p s) ;
      Ok (mkNet (n_c s) (fst x) (n_at s) (left_over e (to_p s)) (to_c s ++ on_wire (snd x)), snd x)
  | ANotify ev => do x <- pd_do (Notify ev) (n_p s) ; Ok (mkNet (n_c s) (fst x) (n_at s) (to_p s) (to_c s), snd x)
  | ASend e k => do x <- cp_do (Send e k) (n_c s) ; Ok (mkNet (fst x) (n_p s) (n_at s) (to_p s) (to_c s), snd x)
  end.

(* commands without an answer of their own: output, LED, buzzer, text, manufacturer *)
Definition plain_cmd (k : cmd) : Prop :=
  match k with COutput _ _ _ | CLed _ _ _ _ | CBuzzer _ _ _ _ _ | CText _ _ _ _ _ _ _ | CMfg _ _ _ _ => True | _ => False end.

(* fields in range, and the device p has what the command is for *)
Definition good_cmd (p : pd) (k : cmd) : Prop := plain_cmd k /\ cmd_in_range k /\ cap_covers (caps p) k.
(* fields in range, the report fits a reply (inside a session if act), the panel c knows the number of items *)
Definition good_event (act : bool) (c p : pd) (ev : event) : Prop :=
  ev_in_range ev /\ items_known (caps c) ev /\ exists pay, event_payload (caps p) ev = Some pay /\ fits (tx_buf_size p) act pay.

(* nothing is lost: what is on its way arrives at the next refresh at which anything arrives at all, and
   that is within 200 ms (OSDP_RESP_TOUT_MS) for the panel; the session does not time out (8 s,
   OSDP_PD_SC_TIMEOUT_MS).  The application of the device accepts the commands, that of the panel listens.
   Calls that hand in commands and events have returned success. *)
Definition allowed (s : net) (a : action) : Prop :=
  match a with
  | AUpdate e =>
      e_evcb e = true /\ 256 <= e_tx e /\
      (to_c s <> [] /\ hears e (to_c s) \/ nothing e /\ (to_p s <> [] \/ to_c s <> [] -> e_now e - n_at s <= 200))
  | ARefresh e =>
      in_session e (n_p s) /\ (forall k, fst (e_cb e 0 k) = 0) /\
      (to_p s <> [] /\ hears e (to_p s) \/ call_typed (Refresh e) /\ heard (e_rx e) = [])
  | ANotify ev => byte_arrays_e ev /\ good_event (sc_active (fl (n_c s))) (n_c s) (n_p s) ev /\ snd (pd_notify_event ev (n_p s)) = true
  | ASend e k => env_typed e /\ good_cmd (n_p s) k /\ snd (fst (cp_send_command e (n_c s) k)) = true
  end.

(* the actions l lead from s to t, and o is what was seen *)
Inductive lossless (s : net) : list action -> net -> list out -> Prop :=
| ll_nil : lossless s [] s []
| ll_snoc l t o a t1 o1 : lossless s l t o -> allowed t a -> act a t = Ok (t1, o1) -> lossless s (l ++ [a]) t1 (o ++ o1).

(* connected, online, nothing under way; either in a session or the panel does not try to get one *)
Record at_work (c p : pd) : Prop := {
  aw_conn : connected c p;
  aw_reach : pd_reach p;
  aw_online : state c = SOnline /\ rq_offline c = false /\ rq_event c = false;
  aw_file : no_transfer c;
  aw_secure : sc_active (fl c) = true \/ sc_is_capable c = false;
  aw_admits : enforce (fl p) = false \/ sc_active (fl p) = true;
  aw_size : 95 <= tx_buf_size c;
  aw_app : has_cb p = true;
  aw_cmds : Forall (good_cmd p) (cmdq c);
  aw_events : Forall (good_event (sc_active (fl c)) c p) (evq p)
}.
Definition begins (s : net) : Prop := at_work (n_c s) (n_p s) /\ to_p s = [] /\ to_c s = [].

(* what was handed in *)
Definition cmds_of (l : list action) : list cmd := flat_map (fun a => match a with ASend _ k => [k] | _ => [] end) l.
Definition events_of (l : list action) : list event := flat_map (fun a => match a with ANotify ev => [ev] | _ => [] end) l.
(* what the application of the panel was told, other than notifications of the library itself *)
Definition told_events (o : list out) : list event := flat_map (fun x => match x with OEv _ (ENotif _ _ _) => [] | OEv _ ev => [ev] | _ => [] end) o.

(* n exchanges and nothing else: the panel has something to do (a command, or 50 ms have passed), sends
   its command, the device gets it and answers, the panel gets the answer *)
Inductive served (s : net) : nat -> net -> list out -> Prop :=
| sv_nil : served s 0 s []
| sv_snoc n t o e1 e2 e3 e4 t1 t2 t3 t4 o1 o2 o3 o4 : served s n t o ->
    allowed t (AUpdate e1) -> cmdq (n_c t) <> [] \/ e_now e1 - tstamp (n_c t) > 50 -> act (AUpdate e1) t = Ok (t1, o1) ->
    allowed t1 (AUpdate e2) -> act (AUpdate e2) t1 = Ok (t2, o2) ->
    allowed t2 (ARefresh e3) -> hears e3 (to_p t2) -> act (ARefresh e3) t2 = Ok (t3, o3) ->
    allowed t3 (AUpdate e4) -> hears e4 (to_c t3) -> act (AUpdate e4) t3 = Ok (t4, o4) ->
    served s (S n) t4 (o ++ o1 ++ o2 ++ o3 ++ o4).
