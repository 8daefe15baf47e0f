(** The files of the application, as seen through the four functions it registers. *)
From Verif Require Import Base Types Phy File Pd SpecPd.

(* calls of the functions of osdp_file_ops *)
Definition file_call (x : out) : Prop :=
  match x with OFOpen _ _ | OFRead _ _ | OFWrite _ _ | OFClose => True | _ => False end.

(* one call, the answer of the application being in e; true: the application holds an open file.  A close that
   fails may leave the file open or not. *)
Inductive use (e : env) : bool -> out -> bool -> Prop :=
| u_open id size : 0 <= fst (e_fopen e id size) -> use e false (OFOpen id size) true
| u_fail id size : fst (e_fopen e id size) < 0 -> use e false (OFOpen id size) false
| u_read n i : use e true (OFRead n i) true
| u_write d i : use e true (OFWrite d i) true
| u_close : use e true OFClose false
| u_stay : e_fclose e < 0 -> use e true OFClose true
| u_other b x : ~ file_call x -> use e b x b.

(* the calls of one refresh in their order *)
Inductive uses (e : env) : bool -> list out -> bool -> Prop :=
| us_nil b : uses e b [] b
| us_cons b x c o d : use e b x c -> uses e c o d -> uses e b (x :: o) d.

(* a whole history (latest first).  Registering functions starts afresh: what was open belongs to the functions
   registered before. *)
Inductive filed : list entry -> bool -> Prop :=
| fd_start : filed [] false
| fd_refresh h p e o b c : filed h b -> uses e b o c -> filed (mkEntry p (Refresh e) o :: h) c
| fd_register h p b : filed h b -> filed (mkEntry p RegisterFileOps [] :: h) false
| fd_other h p k b : filed h b -> (forall e, k <> Refresh e) -> k <> RegisterFileOps -> filed (mkEntry p k [] :: h) b.
