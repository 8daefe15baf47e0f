(** Control panel context: the list of PDs, channel locks and the refresh loop (osdp_cp.c). *)
From Verif Require Import Base Types Phy Pd Cp.

(* osdp_common.h:441-452 struct osdp as the CP uses it.  c_cur is the array index of
   ctx->_current_pd; c_lock is the channel_lock array ([] while it is NULL). *)
Record ctx := mkCtx { c_pds : list pd; c_cur : nat; c_nchan : Z; c_lock : list Z }.

(* osdp_cp.c:116-137 cp_channel_acquire: None is the return value -1. *)
Definition acquire (lock : list Z) (p : pd) : res (option (list Z)) :=
  let i := Z.to_nat (idx p) in
  if Nat.leb (length lock) i then UB OobRead
  else if nth i lock 0 =? chan_id p then Ok (Some lock)
  else if negb (nth i lock 0 =? 0) then Die Assertion
  else if existsb (fun x => x =? chan_id p) lock then Ok None
  else Ok (Some (upd i (chan_id p) lock)).

(* osdp_cp.c:139-150 cp_channel_release. *)
Definition release (lock : list Z) (p : pd) : list Z :=
  let i := Z.to_nat (idx p) in
  if nth i lock 0 =? chan_id p then upd i 0 lock else lock.

(* osdp_cp.c:1321-1347 cp_refresh of the PD at array index i; the boolean is "return value 0". *)
Definition refresh_pd (e : env) (c : ctx) (i : nat) : res (ctx * bool * list out) :=
  match nth_error (c_pds c) i with
  | None => UB NullCall
  | Some p =>
      do a <- (if chn_shared (fl p) then acquire (c_lock c) p else Ok (Some (c_lock c))) ;
      match a with
      | None => Ok (c, true, [])
      | Some lock =>
          do x <- state_update e p ;
          match x with
          | (p1, rc, o) =>
              let pds := upd i p1 (c_pds c) in
              if chn_shared (fl p1) then
                match rc with
                | CYield => Ok (mkCtx pds (c_cur c) (c_nchan c) (release lock p1), true, o)
                | _ => Ok (mkCtx pds (c_cur c) (c_nchan c) lock, negb (c_nchan c =? 1), o)
                end
              else Ok (mkCtx pds (c_cur c) (c_nchan c) lock, true, o)
          end
      end
  end.

(* osdp_cp.c:1543-1547: the PD that is next. *)
Definition next_cur (c : ctx) (i : nat) : nat :=
  let n := match nth_error (c_pds c) i with Some p => idx p + 1 | None => 0 end in
  if n >=? zlen (c_pds c) then 0%nat else Z.to_nat n.

(* osdp_cp.c:1531-1550 osdp_cp_refresh: the loop with k iterations left; [es k] is the environment
   of the iteration (each iteration reads the channel of one PD).  The second component lists the
   array indexes that were refreshed. *)
Fixpoint refresh_loop (es : nat -> env) (k : nat) (c : ctx) : res (ctx * list (nat * list out)) :=
  match k with
  | O => Ok (c, [])
  | S k1 =>
      let i := c_cur c in
      do x <- refresh_pd (es k) c i ;
      match x with
      | (c1, false, o) => Ok (c1, [(i, o)])
      | (c1, true, o) =>
          do y <- refresh_loop es k1 (mkCtx (c_pds c1) (next_cur c1 i) (c_nchan c1) (c_lock c1)) ;
          Ok (fst y, (i, o) :: snd y)
      end
  end.

(* osdp_cp.c:1531-1550 osdp_cp_refresh. *)
Definition cp_refresh (es : nat -> env) (c : ctx) : res (ctx * list (nat * list out)) :=
  refresh_loop es (length (c_pds c)) c.

(* osdp_cp.c:1360-1370: the PDs whose channel id occurs more than once get PD_FLAG_CHN_SHARED. *)
Definition mark_shared (l : list pd) : list pd :=
  map (fun p => if Nat.ltb 1 (count_occ Z.eq_dec (map chan_id l) (chan_id p))
                then set_chn_shared true p else p) l.

(* osdp_cp.c:1349-1385 cp_detect_connection_topology (allocations succeed): the number of channels
   is the number of classes of the external disjoint set, that is of different channel ids. *)
Definition detect_topology (l : list pd) (cur : nat) : res ctx :=
  if zlen l >? 126 then UB OobWrite
  else
    let n := zlen (nodup Z.eq_dec (map chan_id l)) in
    Ok (mkCtx (mark_shared l) cur n (if n =? zlen l then [] else repeat 0 (length l))).

(* osdp_cp.c:1409-1436: one new PD at position i of the info list; None: SCBK missing.  The calloc
   of the structure is pd_zero. *)
Definition new_pd (i : Z) (blocks : Z) (info : pdinfo) : option pd :=
  let p := set_chan_id (i_chan info) (set_pool blocks (set_seqn (-1) (set_fl (public_flags (i_flags info))
             (set_address (i_address info) (set_baud (i_baud info) (set_idx i pd_zero)))))) in
  match i_scbk info with
  | Some k => Some (set_has_scbk true (set_scbk k p))
  | None => if enforce (fl p) then None else Some (set_sc_disabled true p)
  end.

(* osdp_cp.c:1409-1448: the loop over the info list. *)
Fixpoint new_pds (i : Z) (blocks : Z) (l : list pdinfo) : option (list pd) :=
  match l with
  | [] => Some []
  | x :: t =>
      match new_pd i blocks x, new_pds (i + 1) blocks t with
      | Some p, Some q => Some (p :: q)
      | _, _ => None
      end
  end.

(* osdp_cp.c:1387-1466 cp_add_pd and 1495-1510 osdp_cp_add_pd; the boolean is "return value 0".
   The new PDs get idx = position in the info list, not in the array (line 1412). *)
Definition cp_add_pd (blocks : Z) (l : list pdinfo) (c : ctx) : res (ctx * bool) :=
  match l with
  | [] => Die Assertion
  | _ =>
      match new_pds 0 blocks l with
      | None => Ok (c, false)
      | Some q => do c1 <- detect_topology (c_pds c ++ q) 0 ; Ok (c1, true)
      end
  end.

(* osdp_cp.c:1470-1493 osdp_cp_setup; None is the return value NULL. *)
Definition cp_setup (blocks : Z) (l : list pdinfo) : res (option ctx) :=
  let c0 := mkCtx [] 0 0 [] in
  match l with
  | [] => Ok (Some c0)
  | _ =>
      do x <- cp_add_pd blocks l c0 ;
      match x with
      | (c, true) => Ok (Some c)
      | (_, false) => Ok None
      end
  end.

(* osdp_common.c:243-254 and 271-282: bits of up to 8 PDs, lowest first. *)
Fixpoint mask_byte (pos : Z) (l : list bool) : Z :=
  match l with
  | [] => 0
  | b :: t => (if b then 2 ^ pos else 0) + mask_byte (pos + 1) t
  end.

(* osdp_common.c:243-254 and 271-282: the loop over the PDs; one byte for each 8 of them. *)
Fixpoint mask_bytes (fuel : nat) (l : list bool) : list Z :=
  match fuel with
  | O => []
  | S f =>
      mask_byte 0 (firstn 8 l) ::
      (if Nat.leb (length l) 8 then [] else mask_bytes f (skipn 8 l))
  end.

(* osdp_common.c:235-256 osdp_get_sc_status_mask: the bytes written to the bitmask. *)
Definition get_sc_status_mask (l : list pd) : list Z :=
  mask_bytes (S (length l)) (map (fun p => sc_active (fl p) && negb (use_scbkd (fl p))) l).

(* osdp_common.c:258-283 osdp_get_status_mask. *)
Definition get_status_mask (now : Z) (l : list pd) : res (list Z) :=
  match l with
  | [] => UB NullCall
  | p :: _ =>
      if pd_mode (fl p) then Ok [if now - tstamp p <? PD_ONLINE_TOUT then 1 else 0]
      else Ok (mask_bytes (S (length l)) (map (fun p => st_eqb (state p) SOnline) l))
  end.

(* osdp_common.h:169-184 input_check with a PD index (osdp_cp.c:1562 and others): None is the return
   value -1 for an index out of range, otherwise [f] is applied to the PD at the index. *)
Definition on_pd {A} (c : ctx) (i : Z) (f : pd -> pd * A) : option (ctx * A) :=
  if (i <? 0) || (i >=? zlen (c_pds c)) then None
  else
    match nth_error (c_pds c) (Z.to_nat i) with
    | None => None
    | Some p =>
        let (p1, a) := f p in
        Some (mkCtx (upd (Z.to_nat i) p1 (c_pds c)) (c_cur c) (c_nchan c) (c_lock c), a)
    end.
