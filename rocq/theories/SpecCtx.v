(** Life of a whole control panel: several peripherals, their channels, and the calls of the
    application. *)
From Verif Require Import Base Types Phy File Pd Cp CpCtx SpecPd SpecCp.

(* include/osdp.h CP interface: osdp_cp_refresh (each turn of the loop with its own clock and line),
   a call that concerns the PD at index i, osdp_cp_add_pd. *)
Inductive ctx_call :=
| CxRefresh (es : nat -> env)
| CxOn (i : nat) (c : cp_call)
| CxAdd (blocks : Z) (l : list pdinfo).

(* calls the application makes for one PD *)
Definition app_call (c : cp_call) : Prop := match c with Update _ | Share => False | _ => True end.

Definition ctx_typed (x : ctx_call) : Prop :=
  match x with
  | CxRefresh es => forall k, env_typed (es k)
  | CxOn _ c => app_call c /\ cp_call_typed c
  | CxAdd _ l => Forall cp_info_typed l
  end.

(* one call; the list holds the PDs that had a turn, in order, with what was seen *)
Definition ctx_do (x : ctx_call) (c : ctx) : res (ctx * list (nat * list out)) :=
  match x with
  | CxRefresh es => cp_refresh es c
  | CxOn i k =>
      match nth_error (c_pds c) i with
      | None => Ok (c, [])
      | Some p => do y <- cp_do k p ;
          Ok (mkCtx (upd i (fst y) (c_pds c)) (c_cur c) (c_nchan c) (c_lock c), [(i, snd y)])
      end
  | CxAdd blocks l => do y <- cp_add_pd blocks l c ; Ok (fst y, [])
  end.

(* set up with the info list l, the calls of h (latest first) lead to c without undefined behaviour or
   abort *)
Inductive ctx_runs (blocks : Z) (l : list pdinfo) : list ctx_call -> ctx -> Prop :=
| xruns_start c : Forall cp_info_typed l -> cp_setup blocks l = Ok (Some c) -> ctx_runs blocks l [] c
| xruns_step h c x d o : ctx_runs blocks l h c -> ctx_typed x -> ctx_do x c = Ok (d, o) -> ctx_runs blocks l (x :: h) d.

(* no PD is added later *)
Definition fixed (x : ctx_call) : Prop := match x with CxAdd _ _ => False | _ => True end.

(* the PD at index i waits for a reply on channel ch *)
Definition waits (c : ctx) (i : nat) (ch : Z) : Prop :=
  exists p, nth_error (c_pds c) i = Some p /\ chan_id p = ch /\ phy_state p = PReplyWait.

(* m numbers from a on, round and round below n *)
Definition turns (n a m : nat) : list nat := map (fun k => Nat.modulo (a + k) n) (seq 0 m).

(* m is the panel at the start of a refresh with k turns left, after some of its turns, or at the end *)
Inductive sweep (es : nat -> env) : nat -> ctx -> ctx -> Prop :=
| sw_here k c : sweep es k c c
| sw_next k c c1 o m : refresh_pd (es (S k)) c (c_cur c) = Ok (c1, true, o) ->
    sweep es k (mkCtx (c_pds c1) (next_cur c1 (c_cur c)) (c_nchan c1) (c_lock c1)) m -> sweep es (S k) c m
| sw_turn k c c1 b o : refresh_pd (es (S k)) c (c_cur c) = Ok (c1, b, o) -> sweep es (S k) c c1.

(* from c to d every refresh (xs, in order) ended early, with PD i current before and after *)
Inductive stall (i : nat) : ctx -> list (nat -> env) -> ctx -> Prop :=
| stall_nil c : stall i c [] c
| stall_app c k c1 o xs d : ctx_typed k /\ (forall es, k <> CxRefresh es) /\ fixed k -> ctx_do k c = Ok (c1, o) -> stall i c1 xs d -> stall i c xs d
| stall_refresh c es c1 o xs d : ctx_typed (CxRefresh es) -> ctx_do (CxRefresh es) c = Ok (c1, o) ->
    c_cur c1 = i /\ length o <> length (c_pds c) -> stall i c1 xs d -> stall i c (es :: xs) d.

(* refreshes only, from c to d; xs lists the PDs that had a turn *)
Inductive refreshed : ctx -> list nat -> ctx -> Prop :=
| rfs_nil c : refreshed c [] c
| rfs_cons c es c1 o xs d : (forall k, env_typed (es k)) -> cp_refresh es c = Ok (c1, o) -> refreshed c1 xs d -> refreshed c (map fst o ++ xs) d.
