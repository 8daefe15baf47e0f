(** Life of one peripheral as the control panel sees it: the calls that concern it and the runs
    they give. *)
From Verif Require Import Base Types Phy File Pd Cp CpCtx SpecPd.

(* include/osdp.h CP interface for one PD: its part of osdp_cp_refresh (osdp_cp.c:1263-1319),
   osdp_cp_send_command, osdp_cp_flush_commands, osdp_cp_modify_flag, osdp_file_register_ops, and the
   marking of a shared channel by osdp_cp_add_pd (osdp_cp.c:1360-1370).  Clock, line and application
   are part of the call. *)
Inductive cp_call :=
| Update (e : env)
| Send (e : env) (c : cmd)
| FlushCmds
| ModifyFlag (enf inst ign other do_set : bool)
| CpRegisterFileOps
| Share.

(* one call *)
Definition cp_do (c : cp_call) (p : pd) : res (pd * list out) :=
  match c with
  | Update e => do x <- state_update e p ; Ok (fst (fst x), snd x)
  | Send e c => Ok (fst (fst (cp_send_command e p c)), snd (cp_send_command e p c))
  | FlushCmds => Ok (fst (cp_flush_commands p), [])
  | ModifyFlag enf inst ign other do_set => Ok (fst (cp_modify_flag enf inst ign other do_set p), [])
  | CpRegisterFileOps => Ok (file_register_ops p, [])
  | Share => Ok (set_chn_shared true p, [])
  end.

(* the outside world has the types C gives it *)
Definition env_typed (e : env) : Prop :=
  Forall bytes (e_rx e) /\ bytes (e_rand e) /\ (forall n off d, e_fread e n off = Some d -> bytes d).

(* arguments of a call have the types C gives them *)
Definition cp_call_typed (c : cp_call) : Prop :=
  match c with
  | Update e => env_typed e
  | Send e c => env_typed e /\ byte_arrays_c c
  | _ => True
  end.

(* setup information has the types C gives it *)
Definition cp_info_typed (i : pdinfo) : Prop :=
  match i_scbk i with Some k => length k = 16%nat /\ bytes k | None => True end.

(* one entry of the history: the PD entry before the call, the call, what was seen *)
Record cp_entry := mkCe { ce_pd : pd; ce_call : cp_call; ce_out : list out }.

(* cp_runs k n i h p: created at position k of the info list with n command blocks and info i, the
   calls of h (latest first) lead to p without undefined behaviour or abort *)
Inductive cp_runs (k n : Z) (i : pdinfo) : list cp_entry -> pd -> Prop :=
| cruns_start p : cp_info_typed i -> new_pd k n i = Some p -> cp_runs k n i [] p
| cruns_step h p c q o : cp_runs k n i h p -> cp_call_typed c -> cp_do c p = Ok (q, o) ->
    cp_runs k n i (mkCe p c o :: h) q.

(* p can occur *)
Definition cp_reach (p : pd) : Prop := exists k n i h, cp_runs k n i h p.
