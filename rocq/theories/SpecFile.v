(** What the theorems about file transfer speak of. *)
From Verif Require Import Base Rb RbProofs Types Phy File Pd Cp CpCtx SpecRx SpecFrame SpecPd SpecCp SpecLink SpecHand SpecTalk.

(* the state of the file transfer *)
Definition xfer (p : pd) : option fstate := match file p with Some f => Some (f_state f) | None => None end.

(* the writes the application of the device is asked for: data and offset *)
Definition writes (o : list out) : list (list Z * Z) := flat_map (fun x => match x with OFWrite d i => [(d, i)] | _ => [] end) o.

(* the panel's application reads from the file with this content: at least one byte at an offset in
   the file, at most what is asked for *)
Definition reads (data : list Z) (e : env) : Prop :=
  forall n off, 0 < n -> 0 <= off < zlen data ->
  exists k, 1 <= k <= n /\ off + k <= zlen data /\ e_fread e n off = Some (firstn (Z.to_nat k) (skipn (Z.to_nat off) data)).

(* the device's application accepts the transfer and writes all it is given *)
Definition stores (e : env) : Prop :=
  (forall id flags, 0 <= fst (e_cb e 0 (CFileTx id flags))) /\ (forall id size, 0 <= fst (e_fopen e id size)) /\
  (forall d off, e_fwrite e d off = zlen d) /\ 0 <= e_fclose e.

(* a call that sends w after the outputs o *)
Definition tells (r : res (pd * list out)) (K : pd -> list out -> list Z -> Prop) : Prop := exists q o w, r = Ok (q, o ++ [OTx w]) /\ K q o w.

(* the query of the application is answered with the size of the file and an offset *)
Definition progress (p : pd) (size off : Z) : Prop := get_file_tx_status p = Ok (Some (size, off)).

(* transfers data w c p: w has been written so far.  Whatever the applications and the line do in a
   round in which nothing is lost, the device writes some bytes d right behind w, and so on with w
   and d.  After finitely many rounds all of the data is written, and then (and only then) both sides
   have finished.  Between the rounds both sides tell how many bytes have been written. *)
Inductive transfers (data : list Z) : list Z -> pd -> pd -> Prop :=
| tr_done c p : xfer c = Some FDone -> xfer p = Some FDone -> progress c (zlen data) (zlen data) -> progress p (zlen data) (zlen data) ->
    transfers data data c p
| tr_more w c p : xfer c = Some FInprog -> xfer p = Some FInprog /\ progress p (zlen data) (zlen w) \/ w = [] -> progress c (zlen data) (zlen w) -> zlen w < zlen data ->
    (forall e1 e2, env_typed e1 -> env_typed e2 -> 256 <= e_tx e2 -> reads data e2 ->
     moves (cp_do (Update e1) c) (fun c1 => tells (cp_do (Update e2) c1) (fun c2 _ t1 =>
     forall e3, hears e3 t1 -> in_session e3 p -> stores e3 -> tells (pd_do (Refresh e3) p) (fun p1 o t2 =>
     exists d, d <> [] /\ writes o = [(d, zlen w)] /\
     forall e4, hears e4 t2 -> exists c3 o3, cp_do (Update e4) c2 = Ok (c3, o3) /\ transfers data (w ++ d) c3 p1)))) ->
    transfers data w c p.

(* the largest chunk the panel asks its application for, and that it fits a packet to the device *)
Definition chunk_max (c : pd) : Z := tx_buf_size c - (if sc_active (fl c) then 35 else 33).
Definition chunk_fits (c : pd) : Prop :=
  sc_active (fl c) = true -> 15 + 16 * ((chunk_max c + 12 + 15) / 16) <= tx_buf_size c.

(* panel c and device p can start a transfer: both have file operations and no transfer under way *)
Record may_send (c p : pd) : Prop := {
  sd_conn : connected c p;
  sd_dev : pd_reach p;
  sd_online : state c = SOnline /\ cmdq c = [] /\ rq_offline c = false;
  sd_sec : (sc_active (fl c) = true \/ sc_is_capable c = false) /\ (enforce (fl p) = false \/ sc_active (fl p) = true);
  sd_fits : chunk_fits c;
  sd_panel : xfer c = Some FIdle \/ xfer c = Some FDone;
  sd_free : xfer p = Some FIdle \/ xfer p = Some FDone
}.

(* the panel's application opens file id of n bytes *)
Definition opens (e : env) (id n : Z) : Prop := 0 <= fst (e_fopen e id 0) /\ snd (e_fopen e id 0) = n.
