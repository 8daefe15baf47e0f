(** Life of a peripheral device: the calls an application can make and the runs they give. *)
From Verif Require Import Base Types Phy File Pd.

(* include/osdp.h PD interface: osdp_pd_refresh, osdp_pd_notify_event, osdp_pd_flush_events,
   osdp_pd_set_capabilities, osdp_pd_set_command_callback, osdp_file_register_ops.  The outside
   world during a refresh (clock, bytes on the line, answers of the callbacks) is part of the
   call. *)
Inductive pd_call :=
| Refresh (e : env)
| Notify (ev : event)
| Flush
| SetCaps (l : list capent)
| SetCallback (b : bool)
| RegisterFileOps.

(* one call *)
Definition pd_do (c : pd_call) (p : pd) : res (pd * list out) :=
  match c with
  | Refresh e => pd_refresh e p
  | Notify ev => Ok (fst (pd_notify_event ev p), [])
  | Flush => Ok (fst (pd_flush_events p), [])
  | SetCaps l => Ok (pd_set_capabilities l p, [])
  | SetCallback b => Ok (pd_set_command_callback b p, [])
  | RegisterFileOps => Ok (file_register_ops p, [])
  end.

(* what the C types promise about the arguments of a command structure *)
Definition byte_arrays_c (c : cmd) : Prop :=
  match c with
  | CText _ _ _ _ _ _ d | CKeyset _ _ d | CMfg _ _ _ d => bytes d
  | _ => True
  end.

(* ... of an event structure (no array of struct osdp_event is longer than 128 bytes) *)
Definition byte_arrays_e (ev : event) : Prop :=
  match ev with
  | ECard _ _ _ _ d | EKey _ _ d | EMfgrep _ _ _ d => bytes d /\ zlen d <= 128
  | _ => True
  end.

(* ... of a capability entry: both members are uint8_t *)
Definition byte_cap (c : capent) : Prop := byte (c_comp c) /\ byte (c_num c).

(* arguments of a call have the types C gives them *)
Definition call_typed (c : pd_call) : Prop :=
  match c with
  | Refresh e => Forall bytes (e_rx e) /\ bytes (e_rand e) /\
                 (forall n x, byte_arrays_c x -> byte_arrays_c (snd (e_cb e n x)))
  | Notify ev => byte_arrays_e ev
  | SetCaps l => Forall byte_cap l
  | _ => True
  end.

(* setup information has the types C gives it *)
Definition info_typed (i : pdinfo) : Prop :=
  Forall byte_cap (i_cap i) /\
  match i_scbk i with Some k => length k = 16%nat /\ bytes k | None => True end.

(* one entry of the history: the device before the call, the call, what was seen *)
Record entry := mkEntry { en_pd : pd; en_call : pd_call; en_out : list out }.

(* pd_runs i n h p: set up with i (and n event blocks), the calls of h (latest first) lead to p
   without undefined behaviour or abort *)
Inductive pd_runs (i : pdinfo) (n : Z) : list entry -> pd -> Prop :=
| runs_start p : info_typed i -> pd_setup i n = Some p -> pd_runs i n [] p
| runs_step h p c q o : pd_runs i n h p -> call_typed c -> pd_do c p = Ok (q, o) ->
    pd_runs i n (mkEntry p c o :: h) q.

(* p can occur *)
Definition pd_reach (p : pd) : Prop := exists i n h, pd_runs i n h p.
