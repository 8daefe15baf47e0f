(** Calls of the control panel interface with their argument words. *)
From Verif Require Import Base Types Phy Pd Cp.

(* osdp_cp.c:1630-1634 all_flags: include/osdp.h:35,45,53. *)
Definition ALL_FLAGS : Z := 65536 + 131072 + 262144.

(* osdp_cp.c:1627-1644 osdp_cp_modify_flag with the flag word w (uint32_t). *)
Definition modify_flags (w : Z) (do_set : bool) (p : pd) : pd * bool :=
  cp_modify_flag (Z.testbit w 16) (Z.testbit w 17) (Z.testbit w 18)
    (negb (Z.land w (2 ^ 32 - 1 - ALL_FLAGS) =? 0)) do_set p.

(* bit k of pd->flags (include/osdp.h:35-84, src/osdp_common.h:263-276); the bits without entry here
   are never used by the code that is modelled. *)
Definition flag_bit (f : flagset) (k : Z) : bool :=
  if k =? 0 then sc_capable f else if k =? 5 then skip_seq f else if k =? 6 then use_scbkd f
  else if k =? 7 then sc_active f else if k =? 8 then pd_mode f else if k =? 9 then chn_shared f
  else if k =? 11 then has_mark f else if k =? 12 then has_scbk f else if k =? 13 then sc_disabled f
  else if k =? 14 then broadcast f else if k =? 16 then enforce f else if k =? 17 then install f
  else if k =? 18 then ign_unsol f else if k =? 19 then notif f else if k =? 21 then allow_empty f
  else false.
