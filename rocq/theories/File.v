(** File transfer: model of osdp_file.c. *)
From Verif Require Import Base Rb Types.

(* osdp_file.c:11-12 sizes of the two wire structures. *)
Definition FT_HDR : Z := 11.
Definition FT_STAT : Z := 7.

(* osdp_file.c:22-24, osdp_file.h OSDP_CMD_FILE_TX_FLAG_CANCEL (bit 31): bits of f->flags. *)
Definition FB_EXCLUSIVE : Z := 24.
Definition FB_PLAIN : Z := 25.
Definition FB_POLL : Z := 26.
Definition FB_CANCEL : Z := 31.

(* osdp_config.h.in OSDP_FILE_ERROR_RETRY_MAX. *)
Definition FILE_ERROR_RETRY_MAX : Z := 10.

(* osdp_file.c:26-38 file_state_reset. *)
Definition file_reset : filest := mkFile 0 0 FIdle 0 0 0 0 false 0 0.

(* osdp_file.c:40-43 file_tx_in_progress. *)
Definition in_progress (f : filest) : bool :=
  match f_state f with FInprog => true | _ => false end.

(* osdp_common.h SET_FLAG_V: set or clear one bit. *)
Definition put_bit (n : Z) (v : bool) (x : Z) : Z := if v then Z.setbit x n else Z.clearbit x n.

(* osdp_file.c:47-56 write_file_tx_header. *)
Definition file_tx_header (f : filest) : list Z :=
  [byte0 (f_id f);
   byte0 (f_size f); byte1 (f_size f); byte2 (f_size f); byte3 (f_size f);
   byte0 (f_off f); byte1 (f_off f); byte2 (f_off f); byte3 (f_off f);
   byte0 (f_len f); byte1 (f_len f)].

(* osdp_file.c:58-118 osdp_file_cmd_tx_build; None is the return value -1. *)
Definition file_tx_build (e : env) (p : pd) (max_len : Z) : res (pd * option (list Z) * list out) :=
  match file p with
  | None => Die Assertion
  | Some f =>
      match f_state f with
      | FInprog | FKeepAlive =>
          if max_len <=? FT_HDR then Ok (set_file (Some file_reset) p, None, [])
          else
            match f_state f with
            | FKeepAlive => Ok (p, Some (file_tx_header f), [])
            | _ =>
                let n := max_len - FT_HDR - 16 in
                let o := [OFRead n (f_off f)] in
                match e_fread e n (f_off f) with
                | None => Ok (set_file (Some file_reset) p, None, o)
                | Some d =>
                    if zlen d >? n then UB AppContract
                    else if zlen d =? 0 then Ok (set_file (Some file_reset) p, None, o)
                    else
                      let f1 := ff_set_f_len (zlen d) f in
                      Ok (set_file (Some f1) p, Some (file_tx_header f1 ++ d), o)
                end
            end
      | _ => Die Assertion
      end
  end.

(* osdp_file.c:120-192 osdp_file_cmd_stat_decode; the boolean is "return value 0".  f->offset is a
   uint32_t, f->length an int (never negative on the sending side). *)
Definition file_stat_decode (e : env) (p : pd) (buf : list Z) : res (pd * bool * list out) :=
  match file p with
  | None => Ok (p, false, [])
  | Some f =>
      if negb (in_progress f) then Ok (p, false, [])
      else if zlen buf <? FT_STAT then Ok (p, false, [])
      else if negb (zlen buf =? FT_STAT) then Die Assertion
      else if u32 (f_off f + f_len f) >? f_size f then Die Assertion
      else
        let control := getb buf 0 in
        let delay := le16 (getb buf 1) (getb buf 2) in
        let status := le16 (getb buf 3) (getb buf 4) in
        let fl1 := put_bit FB_EXCLUSIVE (negb (Z.testbit control 0)) (f_flags f) in
        let fl2 := put_bit FB_PLAIN (Z.testbit control 1) fl1 in
        let fl3 := put_bit FB_POLL (Z.testbit control 2) fl2 in
        let off := u32 (f_off f + f_len f) in
        let do_close := negb (f_len f =? 0) && (off =? f_size f) in
        let f1 := mkFile fl3 (f_id f) (f_state f) 0 (f_size f) off 0 (f_cancel f) (e_now e) delay in
        if negb (off =? f_size f) then Ok (set_file (Some f1) p, true, [])
        else
          let o := if do_close then [OFClose] else [] in
          if status =? 3 then Ok (set_file (Some (ff_set_f_state FKeepAlive f1)) p, true, o)
          else if status =? 2 then
            Ok (set_rq_offline true (set_file (Some (ff_set_f_state FDone f1)) p), true, o)
          else if status =? 1 then Ok (set_file (Some (ff_set_f_state FDone f1)) p, true, o)
          else Ok (set_file (Some (ff_set_f_err (f_err f1 + 1) f1)) p, false, o)
  end.

(* osdp_file.c:219-245: announcement to the application and opening of a new file; the record that
   is in progress afterwards, or None for the return value -1. *)
Definition file_rx_open (e : env) (p : pd) (f : filest) (ty size : Z) : option filest * list out :=
  match f_state f with
  | FIdle | FDone =>
      let c := CFileTx ty (f_flags f) in
      let o1 := if has_cb p then [OCmd c] else [] in
      if has_cb p && (fst (e_cb e O c) <? 0) then (None, o1)
      else
        let o2 := o1 ++ [OFOpen ty size] in
        if fst (e_fopen e ty size) <? 0 then (None, o2)
        else (Some (ff_set_f_state FInprog (ff_set_f_size size (ff_set_f_id ty file_reset))), o2)
  | _ => (Some f, [])
  end.

(* osdp_file.c:196-265 osdp_file_cmd_tx_decode; the boolean is "return value 0". *)
Definition file_tx_decode (e : env) (p : pd) (buf : list Z) : res (pd * bool * list out) :=
  match file p with
  | None => Ok (p, false, [])
  | Some f =>
      if zlen buf <=? FT_HDR then Ok (p, false, [])
      else
        let b i := getb buf i in
        let ty := b 0 in
        let size := le32 (b 1) (b 2) (b 3) (b 4) in
        let off := le32 (b 5) (b 6) (b 7) (b 8) in
        let len := le16 (b 9) (b 10) in
        if negb (len + FT_HDR =? zlen buf) then Die Assertion
        else
          match file_rx_open e p f ty size with
          | (None, o) => Ok (p, false, o)
          | (Some f1, o) =>
              if negb (in_progress f1) then Ok (set_file (Some f1) p, false, o)
              else
                let data := from buf FT_HDR in
                let n := e_fwrite e data off in
                let o1 := o ++ [OFWrite data off] in
                let f2 := ff_set_f_len n f1 in
                if negb (n =? len) then
                  Ok (set_file (Some (ff_set_f_err (f_err f2 + 1) f2)) p, false, o1)
                else Ok (set_file (Some f2) p, true, o1)
          end
  end.

(* osdp_file.c:267-319 osdp_file_cmd_stat_build; None is the return value -1. *)
Definition file_stat_build (e : env) (p : pd) (max_len : Z) : res (pd * option (list Z) * list out) :=
  match file p with
  | None => Ok (p, None, [])
  | Some f =>
      if negb (in_progress f) then Ok (p, None, [])
      else if max_len <? FT_STAT then Ok (p, None, [])
      else
        let off := if f_len f >? 0 then u32 (f_off f + f_len f) else f_off f in
        let status := if f_len f >? 0 then 0 else 65533 in
        let f1 := ff_set_f_off off (ff_set_f_len 0 f) in
        if off >? f_size f then Die Assertion
        else if off =? f_size f then
          if e_fclose e <? 0 then Ok (set_file (Some f1) p, None, [OFClose])
          else Ok (set_file (Some (ff_set_f_state FDone f1)) p, Some [1; 0; 0; 1; 0; 0; 0],
                   [OFClose])
        else Ok (set_file (Some f1) p, Some [1; 0; 0; byte0 status; byte1 status; 0; 0], [])
  end.

(* osdp_file.c:323-331 osdp_file_tx_abort. *)
Definition file_tx_abort (p : pd) : pd * list out :=
  match file p with
  | Some f => if in_progress f then (set_file (Some file_reset) p, [OFClose]) else (p, [])
  | None => (p, [])
  end.

(* osdp_file.c:341-365 osdp_file_tx_get_command: command id, 0 = nothing, -1 = wait.
   CMD_ABORT = 0xA2, CMD_POLL = 0x60, CMD_FILETRANSFER = 0x7C. *)
Definition file_tx_get_command (e : env) (p : pd) : pd * Z * list out :=
  match file p with
  | None => (p, 0, [])
  | Some f =>
      match f_state f with
      | FIdle | FDone => (p, 0, [])
      | _ =>
          if (f_err f >? FILE_ERROR_RETRY_MAX) || f_cancel f then
            let (p1, o) := file_tx_abort p in (p1, 162, o)
          else if negb (f_wait f =? 0) && (e_now e - f_tstamp f <? f_wait f) then
            (p, if Z.testbit (f_flags f) FB_EXCLUSIVE then -1 else 0, [])
          else if Z.testbit (f_flags f) FB_POLL then (p, 96, [])
          else (p, 124, [])
      end
  end.

(* osdp_file.c:370-416 osdp_file_tx_command; the boolean is "return value 0". *)
Definition file_tx_command (e : env) (p : pd) (id flags : Z) : pd * bool * list out :=
  match file p with
  | None => (p, false, [])
  | Some f =>
      if in_progress f then
        if Z.testbit flags FB_CANCEL then
          if id =? f_id f then (set_file (Some (ff_set_f_cancel true f)) p, true, [])
          else (p, false, [])
        else (p, false, [])
      else if Z.testbit flags FB_CANCEL then (p, false, [])
      else
        let o := [OFOpen id 0] in
        let (rc, size) := e_fopen e id 0 in
        if rc <? 0 then (p, false, o)
        else if size <=? 0 then (p, false, o)
        else (set_file (Some (ff_set_f_state FInprog (ff_set_f_size size (ff_set_f_id id
                (ff_set_f_flags flags file_reset))))) p, true, o)
  end.

(* osdp_file.c:420-437 osdp_file_register_ops (allocation succeeds). *)
Definition file_register_ops (p : pd) : pd := set_file (Some file_reset) p.

(* osdp_file.c:439-455 osdp_get_file_tx_status: size and offset; None is the return value -1. *)
Definition get_file_tx_status (p : pd) : res (option (Z * Z)) :=
  match file p with
  | None => UB NullCall
  | Some f => match f_state f with
              | FInprog | FDone => Ok (Some (f_size f, f_off f))
              | _ => Ok None
              end
  end.
