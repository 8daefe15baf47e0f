(** Peripheral device: model of osdp_pd.c. *)
From Verif Require Import Base Crc Aes Rb Types Sc Phy File.

(* osdp_pd.c:48-55 enum osdp_pd_error_e. *)
Inductive pderr := RNone | RWait | RGeneric | RReply | RIgnore | RNoData.

(* osdp_common.h:190-247 command and reply codes. *)
Definition CMD_POLL : Z := 96.
Definition CMD_ID : Z := 97.
Definition CMD_CAP : Z := 98.
Definition CMD_LSTAT : Z := 100.
Definition CMD_ISTAT : Z := 101.
Definition CMD_OSTAT : Z := 102.
Definition CMD_RSTAT : Z := 103.
Definition CMD_OUT : Z := 104.
Definition CMD_LED : Z := 105.
Definition CMD_BUZ : Z := 106.
Definition CMD_TEXT : Z := 107.
Definition CMD_COMSET : Z := 110.
Definition CMD_ACURXSIZE : Z := 123.
Definition CMD_FILETRANSFER : Z := 124.
Definition CMD_MFG : Z := 128.
Definition CMD_ABORT : Z := 162.
Definition CMD_KEEPACTIVE : Z := 167.
Definition REPLY_PDID : Z := 69.
Definition REPLY_PDCAP : Z := 70.
Definition REPLY_LSTATR : Z := 72.
Definition REPLY_ISTATR : Z := 73.
Definition REPLY_OSTATR : Z := 74.
Definition REPLY_RSTATR : Z := 75.
Definition REPLY_RAW : Z := 80.
Definition REPLY_KEYPAD : Z := 83.
Definition REPLY_COM : Z := 84.
Definition REPLY_FTSTAT : Z := 122.
Definition REPLY_MFGREP : Z := 144.

(* include/osdp.h enum osdp_pd_cap_function_code_e. *)
Definition CAP_CONTACT : Z := 1.
Definition CAP_OUTPUT : Z := 2.
Definition CAP_LED : Z := 4.
Definition CAP_AUDIBLE : Z := 5.
Definition CAP_TEXT : Z := 6.
Definition CAP_CHECK : Z := 8.
Definition CAP_COMMSEC : Z := 9.
Definition CAP_RXBUF : Z := 10.
Definition CAP_VERSION : Z := 16.
Definition CAP_SENTINEL : Z := 17.

(* osdp_config.h.in timeouts in milliseconds. *)
Definition PD_SC_TIMEOUT : Z := 8000.
Definition PD_ONLINE_TOUT : Z := 8000.
Definition RESP_TOUT : Z := 200.

(* osdp_common.h:394 pd->cap[fc]. *)
Definition cap_at (p : pd) (fc : Z) : capent := nth (Z.to_nat fc) (caps p) (mkCap 0 0 0).

(* memcpy(dst, array, n) from an array of the application structure. *)
Definition take_arr (l : list Z) (n : Z) : res (list Z) :=
  if n <? 0 then UB NegLen
  else if zlen l <? n then UB OobRead
  else Ok (firstn (Z.to_nat n) l).

(* osdp_common.c:45-87 osdp_cmd_name dereferences NULL for the codes without a name. *)
Definition cmd_name_null (c : Z) : bool :=
  (c =? 99) || ((111 <=? c) && (c <=? 114)) || ((120 <=? c) && (c <=? 122))
  || ((125 <=? c) && (c <=? 127)) || ((129 <=? c) && (c <=? 160)) || (c =? 166).

(* osdp_pd.c:140-195 pd_translate_event: reply code and the event to keep; code 0 is turned into
   REPLY_ACK and nothing is copied. *)
Definition event_reply (ev : event) : Z :=
  match ev with
  | ECard _ fmt _ _ _ => if (fmt =? 0) || (fmt =? 1) then REPLY_RAW else 0
  | EKey _ _ _ => REPLY_KEYPAD
  | EStatus ty _ _ =>
      if ty =? 0 then REPLY_ISTATR else if ty =? 1 then REPLY_OSTATR
      else if ty =? 2 then REPLY_LSTATR else if ty =? 3 then REPLY_RSTATR else 0
  | EMfgrep _ _ _ _ => REPLY_MFGREP
  | _ => 0
  end.

(* osdp_pd.c:189-194 end of pd_translate_event. *)
Definition translate_event (p : pd) (ev : event) : pd :=
  let r := event_reply ev in
  if r =? 0 then set_reply_id REPLY_ACK p else set_reply_id r (set_eph (EphEv ev) p).

(* osdp_pd.c:197-208 do_command_callback, n-th call of this refresh: the boolean is the return
   value, the command is the structure as the callback left it. *)
Definition do_callback (e : env) (n : nat) (p : pd) (c : cmd) : pd * bool * cmd * list out :=
  let (rc, c1) := e_cb e n c in
  if rc =? 0 then (p, true, c1, [OCmd c]) else (nak 9 p, false, c1, [OCmd c]).

(* osdp_pd.c:210-270 pd_cmd_cap_ok for the commands that need only a capability entry. *)
Definition cap_present (p : pd) (fc : Z) : bool :=
  negb ((c_num (cap_at p fc) =? 0) || (c_comp (cap_at p fc) =? 0)).

(* osdp_pd.c:228-241: commands that name an item (output number, LED number). *)
Definition cap_item (p : pd) (fc item : Z) : bool :=
  negb ((c_comp (cap_at p fc) =? 0) || (item + 1 >? c_num (cap_at p fc))).

(* osdp_pd.c:254-263 secure channel commands. *)
Definition cap_sc (p : pd) : bool := negb (c_comp (cap_at p CAP_COMMSEC) =? 0).

(* osdp_pd.c:317-326, 335-345, 354-364 and 370-379: status command; the structure that the callback leaves is read
   as a status report. *)
Definition do_status (e : env) (p : pd) (ty reply : Z) : res (pd * pderr * list out) :=
  match do_callback e 0 p (CStatus ty 0 0) with
  | (p1, false, _, o) => Ok (p1, RGeneric, o)
  | (p1, true, CStatus t n m, o) =>
      Ok (set_reply_id reply (set_eph (EphEv (EStatus t n m)) p1), RNone, o)
  | (_, true, _, _) => UB BadUnion
  end.

(* osdp_pd.c:403-407 one output record. *)
Definition dec_out (b : list Z) : cmd :=
  COutput (getb b 0) (getb b 1) (le16 (getb b 2) (getb b 3)).

(* osdp_pd.c:424-440 one LED record (permanent.timer_count is not set by the code). *)
Definition dec_led (b : list Z) : cmd :=
  CLed (getb b 0) (getb b 1)
    (mkLedp (getb b 2) (getb b 3) (getb b 4) (getb b 5) (getb b 6) (le16 (getb b 7) (getb b 8)))
    (mkLedp (getb b 9) (getb b 10) (getb b 11) (getb b 12) (getb b 13) 0).

(* osdp_pd.c:457-462 one buzzer record. *)
Definition dec_buz (b : list Z) : cmd :=
  CBuzzer (getb b 0) (getb b 1) (getb b 2) (getb b 3) (getb b 4).

(* osdp_pd.c:228-247 capability test of one record. *)
Definition rec_ok (p : pd) (c : cmd) : bool :=
  match c with
  | COutput no _ _ => cap_item p CAP_OUTPUT no
  | CLed _ led _ _ => cap_item p CAP_LED led
  | CBuzzer _ _ _ _ _ => cap_present p CAP_AUDIBLE
  | _ => false
  end.

(* osdp_pd.c:402-414, 423-447, 456-469: the loop over the records of OUT, LED and BUZ; it stops at
   the first record that is refused.  pd_cmd_cap_ok / do_command_callback set a NAK that is
   overwritten by the caller. *)
Fixpoint do_records (e : env) (n : nat) (p : pd) (l : list cmd) : pd * list out :=
  match l with
  | [] => (p, [])
  | c :: t =>
      if negb (rec_ok p c) then (nak 3 p, [])
      else
        match do_callback e n p c with
        | (p1, false, _, o) => (p1, o)
        | (p1, true, _, o) => let (p2, o2) := do_records e (S n) p1 t in (p2, o ++ o2)
        end
  end.

(* the records of a data block of k * size bytes (osdp_pd.c:402, 423, 456). *)
Fixpoint chunks (k : nat) (size : Z) (b : list Z) : list (list Z) :=
  match k with
  | O => []
  | S k1 => sub b 0 size :: chunks k1 size (from b size)
  end.

(* osdp_pd.c:397-472: CMD_OUT, CMD_LED, CMD_BUZ. *)
Definition do_multi (e : env) (p : pd) (size : Z) (dec : list Z -> cmd) (d : list Z)
  : res (pd * pderr * list out) :=
  if negb (zlen d mod size =? 0) || negb (has_cb p) then Ok (p, RGeneric, [])
  else
    let (p1, o) := do_records e 0 p (map dec (chunks (Z.to_nat (zlen d / size)) size d)) in
    Ok (set_reply_id REPLY_ACK p1, RNone, o).

(* osdp_pd.c:473-499 CMD_TEXT (text.data beyond length is not initialised: not represented). *)
Definition do_text (e : env) (p : pd) (d : list Z) : res (pd * pderr * list out) :=
  if (zlen d <? 6) || negb (has_cb p) then Ok (p, RGeneric, [])
  else
    let n := getb d 5 in
    if (n >? 32) || (zlen d - 6 <? n) then Ok (p, RGeneric, [])
    else if negb (cap_present p CAP_TEXT) then Ok (nak 3 p, RReply, [])
    else
      let c := CText (getb d 0) (getb d 1) (getb d 2) (getb d 3) (getb d 4) n (sub d 6 n) in
      match do_callback e 0 p c with
      | (p1, false, _, o) => Ok (p1, RReply, o)
      | (p1, true, _, o) => Ok (set_reply_id REPLY_ACK p1, RNone, o)
      end.

(* osdp_pd.c:511-516 the baud rates that COMSET accepts. *)
Definition baud_ok (b : Z) : bool :=
  (b =? 9600) || (b =? 19200) || (b =? 38400) || (b =? 57600) || (b =? 115200) || (b =? 230400).

(* osdp_pd.c:500-529 CMD_COMSET. *)
Definition do_comset (e : env) (p : pd) (d : list Z) : res (pd * pderr * list out) :=
  if negb (zlen d =? 5) || negb (has_cb p) then Ok (p, RGeneric, [])
  else
    let a := getb d 0 in
    let br := le32 (getb d 1) (getb d 2) (getb d 3) (getb d 4) in
    if (a >=? 127) || negb (baud_ok br) then Ok (p, RGeneric, [])
    else
      match do_callback e 0 p (CComset a br) with
      | (p1, false, _, o) => Ok (p1, RReply, o)
      | (p1, true, c1, o) => Ok (set_reply_id REPLY_COM (set_eph (EphCmd c1) p1), RNone, o)
      end.

(* osdp_pd.c:530-559 CMD_MFG (ret is OSDP_PD_ERR_GENERIC at line 551, so the MFGREP branch is never
   taken). *)
Definition do_mfg (e : env) (p : pd) (d : list Z) : res (pd * pderr * list out) :=
  if (zlen d <? 4) || negb (has_cb p) then Ok (p, RGeneric, [])
  else
    let n := zlen d - 4 in
    if n >? 64 then Ok (p, RGeneric, [])
    else
      match do_callback e 0 p (CMfg (le24 (getb d 0) (getb d 1) (getb d 2)) (getb d 3) n
                                 (from d 4)) with
      | (p1, false, _, o) => Ok (p1, RReply, o)
      | (p1, true, _, o) => Ok (set_reply_id REPLY_ACK p1, RNone, o)
      end.

(* osdp_pd.c:592-628 CMD_KEYSET. *)
Definition do_keyset (e : env) (p : pd) (d : list Z) : res (pd * pderr * list out) :=
  if negb (zlen d =? 18) then Ok (p, RGeneric, [])
  else if negb (getb d 0 =? 1) || negb (getb d 1 =? 16) then Ok (p, RGeneric, [])
  else
    let p0 := nak 6 p in
    if negb (cap_sc p0) then Ok (nak 5 p0, RReply, [])
    else if negb (sc_active (fl p0)) then Ok (p0, RReply, [])
    else if negb (has_cb p0) then Ok (p0, RReply, [])
    else
      match do_callback e 0 p0 (CKeyset (getb d 0) (getb d 1) (from d 2)) with
      | (p1, false, _, o) => Ok (p1, RReply, o)
      | (p1, true, CKeyset _ _ k, o) =>
          do k16 <- take_arr k 16 ;
          Ok (set_eph (EphKey k16) (set_reply_id REPLY_ACK p1), RNone, o)
      | (_, true, _, _) => UB BadUnion
      end.

(* osdp_pd.c:629-641 CMD_CHLNG. *)
Definition do_chlng (p : pd) (d : list Z) : pd * pderr :=
  if negb (zlen d =? 8) then (p, RGeneric)
  else if negb (cap_sc p) then (nak 5 p, RReply)
  else (set_reply_id REPLY_CCRYPT (set_cp_random d (sc_deactivate p)), RNone).

(* osdp_pd.c:642-659 CMD_SCRYPT. *)
Definition do_scrypt (p : pd) (d : list Z) : pd * pderr :=
  if negb (zlen d =? 16) then (p, RGeneric)
  else if negb (cap_sc p) then (nak 5 p, RReply)
  else if sc_active (fl p) then (nak 6 p, RReply)
  else (set_reply_id REPLY_RMAC_I (set_cp_crypt d p), RNone).

(* osdp_pd.c:298-665 the switch of pd_decode_command; None is the default case. *)
Definition decode_switch (e : env) (p : pd) (c : Z) (d : list Z)
  : option (res (pd * pderr * list out)) :=
  let n := zlen d in
  let ack q := Ok (set_reply_id REPLY_ACK q, RNone, []) in
  let bad := Ok (p, RGeneric, []) in
  if c =? CMD_POLL then Some (
    if negb (n =? 0) then bad
    else match evq p with
         | [] => ack p
         | ev :: q => Ok (translate_event (set_evq q p) ev, RNone, [])
         end)
  else if c =? CMD_LSTAT then Some (
    if negb (n =? 0) then bad
    else if negb (has_cb p) then UB NullCall
    else do_status e p 2 REPLY_LSTATR)
  else if c =? CMD_ISTAT then Some (
    if negb (n =? 0) || negb (has_cb p) then bad
    else if negb (cap_present p CAP_CONTACT) then Ok (nak 3 p, RReply, [])
    else do_status e p 0 REPLY_ISTATR)
  else if c =? CMD_OSTAT then Some (
    if negb (n =? 0) || negb (has_cb p) then bad
    else if negb (cap_present p CAP_OUTPUT) then Ok (nak 3 p, RReply, [])
    else do_status e p 1 REPLY_OSTATR)
  else if c =? CMD_RSTAT then Some (
    if negb (n =? 0) || negb (has_cb p) then bad
    else do_status e p 3 REPLY_RSTATR)
  else if c =? CMD_ID then Some (
    if negb (n =? 1) then bad else Ok (set_reply_id REPLY_PDID p, RNone, []))
  else if c =? CMD_CAP then Some (
    if negb (n =? 1) then bad else Ok (set_reply_id REPLY_PDCAP p, RNone, []))
  else if c =? CMD_OUT then Some (do_multi e p 4 dec_out d)
  else if c =? CMD_LED then Some (do_multi e p 14 dec_led d)
  else if c =? CMD_BUZ then Some (do_multi e p 5 dec_buz d)
  else if c =? CMD_TEXT then Some (do_text e p d)
  else if c =? CMD_COMSET then Some (do_comset e p d)
  else if c =? CMD_MFG then Some (do_mfg e p d)
  else if c =? CMD_ACURXSIZE then Some (
    if n <? 2 then bad else ack (set_peer_rx (le16 (getb d 0) (getb d 1)) p))
  else if c =? CMD_KEEPACTIVE then Some (
    if n <? 2 then bad else ack (set_sc_tstamp (sc_tstamp p + le16 (getb d 0) (getb d 1)) p))
  else if c =? CMD_ABORT then Some (
    if negb (n =? 0) then bad
    else let (p1, o) := file_tx_abort p in Ok (set_reply_id REPLY_ACK p1, RNone, o))
  else if c =? CMD_FILETRANSFER then Some (
    do r <- file_tx_decode e p d ;
    match r with
    | (p1, true, o) => Ok (set_reply_id REPLY_FTSTAT p1, RNone, o)
    | (p1, false, o) => Ok (p1, RWait, o)     (* ret = -1 is OSDP_PD_ERR_WAIT *)
    end)
  else if c =? CMD_KEYSET then Some (do_keyset e p d)
  else if c =? CMD_CHLNG then Some (let (p1, r) := do_chlng p d in Ok (p1, r, []))
  else if c =? CMD_SCRYPT then Some (let (p1, r) := do_scrypt p d in Ok (p1, r, []))
  else None.

(* osdp_pd.c:282-296: commands allowed without secure channel under ENFORCE_SECURE. *)
Definition plain_allowed (c : Z) : bool :=
  (c =? CMD_ID) || (c =? CMD_CAP) || (c =? CMD_CHLNG) || (c =? CMD_SCRYPT).

(* osdp_pd.c:272-682 pd_decode_command; l is the command byte and its data (not empty). *)
Definition decode_command (e : env) (p : pd) (l : list Z) : res (pd * pderr * list out) :=
  let c := getb l 0 in
  let d := from l 1 in
  let p1 := set_cmd_id c (set_reply_id 0 p) in
  if enforce (fl p1) && negb (sc_active (fl p1)) && negb (plain_allowed c) then
    if cmd_name_null c then UB NullCall else Ok (nak 6 p1, RReply, [])
  else
    match decode_switch e p1 c d with
    | None => Ok (nak 3 p1, RReply, [])
    | Some r =>
        do x <- r ;
        match x with
        | (p2, RGeneric, o) => Ok (nak 2 p2, RReply, o)
        | y => Ok y
        end
    end.

(* osdp_pd.c:684-688 assert_buf_len. *)
Definition assert_len {A} (need have : Z) (k : res A) : res A :=
  if need <? have then k else Die Assertion.

(* osdp_pd.c:760-762: `!!(mask & (1 << i))` for i < n; a shift by 32 or more is undefined
   (1 << 31 is taken as the sign bit, as compilers do). *)
Definition mask_bits (mask n : Z) : res (list Z) :=
  if n >? 32 then UB BadShift
  else Ok (map (fun i => if Z.testbit mask (Z.of_nat i) then 1 else 0) (seq 0 (Z.to_nat n))).

(* pd->ephemeral_data read as struct osdp_event (osdp_pd.c:753, 767, 782, 790). *)
Definition eph_status (p : pd) : res (Z * Z) :=
  match eph p with EphEv (EStatus _ n m) => Ok (n, m) | _ => UB BadUnion end.

(* osdp_pd.c:752-779 REPLY_OSTATR / REPLY_ISTATR; None: the entry count does not match. *)
Definition build_mask (p : pd) (fc max_len : Z) : res (option (list Z)) :=
  do s <- eph_status p ;
  let n := c_num (cap_at p fc) in
  if negb (fst s =? n) then Ok None
  else assert_len (n + 1) max_len
         (do bs <- mask_bits (snd s) n ; Ok (Some (reply_id p :: bs))).

(* osdp_pd.c:737-749: entries of the capability report. *)
Fixpoint cap_entries (p : pd) (fuel : nat) (i max_len : Z) : list Z :=
  match fuel with
  | O => []
  | S f =>
      let c := cap_at p i in
      if negb (c_fc c =? i) then cap_entries p f (i + 1) max_len
      else if max_len <? 3 then []
      else [i; c_comp c; c_num c] ++ cap_entries p f (i + 1) (max_len - 3)
  end.

(* osdp_pd.c:717-731 payload of REPLY_PDID. *)
Definition id_bytes (i : pdid) : list Z :=
  [byte0 (id_vendor i); byte1 (id_vendor i); byte2 (id_vendor i);
   byte0 (id_model i); byte0 (id_version i);
   byte0 (id_serial i); byte1 (id_serial i); byte2 (id_serial i); byte3 (id_serial i);
   byte2 (id_fw i); byte1 (id_fw i); byte0 (id_fw i)].

(* result of one case of the switch of pd_build_reply (osdp_pd.c:707-915): state, payload (None:
   ret is not OSDP_PD_ERR_NONE), security block type and data byte if the case sets them. *)
Definition built : Type := (pd * option (list Z) * option (Z * Z) * list out)%type.

(* osdp_pd.c:871-888 REPLY_CCRYPT; e_rand are the bytes of osdp_fill_random. *)
Definition build_ccrypt (e : env) (p : pd) (has_smb : bool) (max_len : Z) : res built :=
  if negb has_smb then Ok (p, None, None, [])
  else assert_len 33 max_len
    (let p1 := compute_pd_cryptogram (compute_session_keys
                 (set_pd_random (firstn 8 (e_rand e ++ zeros 8)) p)) in
     Ok (p1, Some (reply_id p1 :: client_uid (sc p1) ++ pd_random (sc p1) ++ pd_crypt (sc p1)),
         Some (SCS_12, if use_scbkd (fl p1) then 0 else 1), [])).

(* osdp_pd.c:889-914 REPLY_RMAC_I. *)
Definition build_rmac (e : env) (p : pd) (has_smb : bool) (max_len : Z) : res built :=
  if negb has_smb then Ok (p, None, None, [])
  else assert_len 17 max_len
    (let p1 := compute_rmac_i p in
     let pay := Some (reply_id p1 :: r_mac (sc p1)) in
     if verify_cp_cryptogram p1 then
       Ok (set_sc_tstamp (e_now e) (set_sc_active true p1), pay, Some (SCS_14, 1), [])
     else Ok (p1, pay, Some (SCS_14, 0), [])).

(* osdp_pd.c:707-915 the switch of pd_build_reply. *)
Definition build_switch (e : env) (p : pd) (has_smb : bool) (max_len : Z) : res built :=
  let r := reply_id p in
  let fine l : res built := Ok (p, Some l, None, []) in
  if r =? REPLY_ACK then assert_len 1 max_len (fine [r])
  else if r =? REPLY_PDID then assert_len 13 max_len (fine (r :: id_bytes (pid p)))
  else if r =? REPLY_PDCAP then assert_len 1 max_len (fine (r :: cap_entries p 16 1 max_len))
  else if r =? REPLY_OSTATR then
    do o <- build_mask p CAP_OUTPUT max_len ; Ok (p, o, None, [])
  else if r =? REPLY_ISTATR then
    do o <- build_mask p CAP_CONTACT max_len ; Ok (p, o, None, [])
  else if r =? REPLY_LSTATR then
    assert_len 3 max_len
      (do s <- eph_status p ;
       fine [r; if Z.testbit (snd s) 0 then 1 else 0; if Z.testbit (snd s) 1 then 1 else 0])
  else if r =? REPLY_RSTATR then
    assert_len 2 max_len
      (do s <- eph_status p ; fine [r; if Z.testbit (snd s) 0 then 1 else 0])
  else if r =? REPLY_KEYPAD then
    match eph p with
    | EphEv (EKey reader n data) =>
        assert_len (2 + n) max_len
          (do d <- take_arr data n ; fine ([r; u8 reader; u8 n] ++ d))
    | _ => UB BadUnion
    end
  else if r =? REPLY_RAW then
    match eph p with
    | EphEv (ECard reader fmt _ n data) =>
        let nb := Z.quot (n + 7) 8 in
        assert_len (4 + nb) max_len
          (do d <- take_arr data nb ; fine ([r; u8 reader; u8 fmt; byte0 n; byte1 n] ++ d))
    | _ => UB BadUnion
    end
  else if r =? REPLY_COM then
    match eph p with
    | EphCmd (CComset a b) =>
        assert_len 6 max_len
          (Ok (set_baud b (set_address a p),
               Some [r; u8 a; byte0 b; byte1 b; byte2 b; byte3 b], None, []))
    | _ => UB BadUnion
    end
  else if r =? REPLY_NAK then
    match eph p with
    | EphNak c => assert_len 2 max_len (fine [r; c])
    | _ => UB BadUnion
    end
  else if r =? REPLY_MFGREP then
    match eph p with
    | EphEv (EMfgrep v c n data) =>
        assert_len (4 + n) max_len
          (do d <- take_arr data n ; fine ([r; byte0 v; byte1 v; byte2 v; u8 c] ++ d))
    | _ => UB BadUnion
    end
  else if r =? REPLY_FTSTAT then
    do x <- file_stat_build e p max_len ;
    match x with
    | (p1, Some l, o) => Ok (p1, Some (r :: l), None, o)
    | (p1, None, o) => Ok (p1, None, None, o)
    end
  else if r =? REPLY_CCRYPT then build_ccrypt e p has_smb max_len
  else if r =? REPLY_RMAC_I then build_rmac e p has_smb max_len
  else Ok (p, None, None, []).

(* osdp_pd.c:884-886 and 898-912: smb[0] = 3, smb[1], smb[2]. *)
Definition put_smb (pos ty b : Z) (f : list Z) : list Z :=
  let i := Z.to_nat pos in upd (i + 2) b (upd (i + 1) ty (upd i 3 f)).

(* osdp_pd.c:695-933 pd_build_reply: the complete packet; [l] is what packet_init wrote. *)
Definition build_reply (e : env) (p : pd) (l : list Z) (buf_len : Z)
  : res (pd * list Z * list out) :=
  let off := data_offset p l in
  let max_len := buf_len - off in
  let smb := smb_pos p l in
  do x <- build_switch e p (match smb with Some _ => true | None => false end) max_len ;
  match x with
  | (p1, pay, ss, o) =>
      let len := match pay with Some d => zlen d
                 | None => if reply_id p1 =? REPLY_FTSTAT then 1 else 0 end in
      let f0 := l ++ match pay with Some d => d | None => [] end in
      let f1 := match smb, ss with
                | Some pos, Some (ty, b) => put_smb pos ty b f0
                | _, _ => f0
                end in
      let f2 := match smb with
                | Some pos =>
                    if (getb f1 (pos + 1) >? SCS_14) && sc_active (fl p1) then
                      upd (Z.to_nat pos + 1) (if len >? 1 then SCS_18 else SCS_16)
                        (upd (Z.to_nat pos) 2 f1)
                    else f1
                | None => f1
                end in
      match pay with
      | Some _ => Ok (p1, f2, o)
      | None => assert_len 2 max_len (Ok (p1, f2 ++ [REPLY_NAK; 9], o))
      end
  end.

(* osdp_pd.c:935-960 pd_send_reply; the boolean is "return value OSDP_PD_ERR_NONE". *)
Definition send_reply (e : env) (p : pd) : res (pd * bool * list out) :=
  let n := tx_buf_size p in
  match packet_init p n with
  | (p1, None) => Ok (p1, false, [])
  | (p1, Some l) =>
      do x <- build_reply e p1 l n ;
      match x with
      | (p2, f, o) =>
          do y <- send_packet e p2 f n ;
          match y with (p3, ok, o2) => Ok (p3, ok, o ++ o2) end
      end
  end.

(* osdp_pd.c:962-997 pd_receive_and_process_command.  OSDP_ERR_PKT_CHECK (-4), _BUSY (-5) and
   _BUILD (-7) are propagated as numbers; -4 and -5 are OSDP_PD_ERR_IGNORE and _NO_DATA. *)
Definition receive_and_process (e : env) (p : pd) : res (pd * pderr * list out) :=
  do x <- check_packet e p ;
  match x with
  | (p1, KNack) => Ok (p1, RReply, [])
  | (p1, KNoData) => Ok (p1, RNoData, [])
  | (p1, KWait) => Ok (p1, RWait, [])
  | (p1, KSkip) => Ok (state_reset false p1, RIgnore, [])
  | (p1, KFmt) => Ok (p1, RGeneric, [])
  | (p1, KCheck) => Ok (p1, RIgnore, [])
  | (p1, KBusy) => Ok (p1, RNoData, [])
  | (p1, KBuild) => Ok (p1, RGeneric, [])
  | (p1, KNone) =>
      do y <- decode_packet p1 ;
      match y with
      | (p2, DErr c) => Ok (p2, if c =? -6 then RReply else RGeneric, [])
      | (p2, DData l) => decode_command e p2 l
      end
  end.

(* osdp_pd.c:999-1003 pd_error_reset. *)
Definition pd_error_reset (p : pd) : pd := state_reset false (sc_deactivate p).

(* osdp_pd.c:1036-1057: reply and what follows it. *)
Definition reply_phase (e : env) (p : pd) : res (pd * list out) :=
  do x <- send_reply e p ;
  match x with
  | (p1, true, o) =>
      if (cmd_id p1 =? CMD_KEYSET) && (reply_id p1 =? REPLY_ACK) then
        match eph p1 with
        | EphKey k =>
            Ok (state_reset false (sc_deactivate (set_install false (set_use_scbkd false
                  (set_scbk k p1)))), o)
        | _ => UB BadUnion
        end
      else Ok (state_reset false p1, o)
  | (p1, false, o) => Ok (state_reset false p1, o)
  end.

(* osdp_pd.c:1013-1017: session timeout. *)
Definition sc_timeout (e : env) (p : pd) : pd :=
  if sc_active (fl p) && (e_now e - sc_tstamp p >? PD_SC_TIMEOUT) then sc_deactivate p else p.

(* osdp_pd.c:1005-1058 osdp_pd_update, called by osdp_pd_refresh (osdp_pd.c:1185-1191). *)
Definition pd_refresh (e : env) (p : pd) : res (pd * list out) :=
  do x <- receive_and_process e (sc_timeout e p) ;
  match x with
  | (p1, RIgnore, o) => Ok (p1, o)
  | (p1, RNoData, o) => Ok (p1, o)
  | (p1, RWait, o) =>
      if e_now e - tstamp p1 <? RESP_TOUT then Ok (p1, o) else Ok (pd_error_reset p1, o)
  | (p1, RGeneric, o) => Ok (pd_error_reset p1, o)
  | (p1, RNone, o) =>
      let p2 := if sc_active (fl p1) then set_sc_tstamp (e_now e) p1 else p1 in
      do y <- reply_phase e p2 ;
      match y with (p3, o2) => Ok (p3, o ++ o2) end
  | (p1, RReply, o) =>
      do y <- reply_phase e p1 ;
      match y with (p3, o2) => Ok (p3, o ++ o2) end
  end.

(* osdp_pd.c:1060-1078 osdp_pd_set_attributes, capability part.  The list ends like the C array at
   the first function code that is not positive or not below the sentinel. *)
Fixpoint set_caps_from (l : list capent) (cs : list capent) : list capent :=
  match l with
  | [] => cs
  | c :: t =>
      if c_fc c <=? 0 then cs
      else if c_fc c >=? CAP_SENTINEL then cs
      else set_caps_from t (upd (Z.to_nat (c_fc c)) c cs)
  end.

(* osdp_pd.c:57-79 implicit capabilities. *)
Definition implicit_caps : list capent :=
  [mkCap CAP_CHECK 1 0; mkCap CAP_COMMSEC 1 0; mkCap CAP_RXBUF 0 1; mkCap CAP_VERSION 2 0].

(* include/osdp.h:340-400 the part of osdp_pd_info_t that osdp_pd_setup reads. *)
Record pdinfo := mkInfo {
  i_baud : Z; i_address : Z; i_flags : flagset; i_id : pdid; i_cap : list capent;
  i_scbk : option (list Z); i_chan : Z
}.

(* include/osdp.h OSDP_FLAG_*: only the public bits of info->flags. *)
Definition public_flags (f : flagset) : flagset :=
  mkFlags false false false false false false false false false false
    (enforce f) (install f) (ign_unsol f) (notif f) (allow_empty f).

(* calloc of struct osdp_pd (osdp_pd.c:1097): all bytes zero. *)
Definition pd_zero : pd :=
  mkPd 0 (mkFlags false false false false false false false false false false false false false
            false false) 0 0 0 (mkId 0 0 0 0 0) (repeat (mkCap 0 0 0) 17) SInit PIdle 0 0 0 0 0
    false false false 0 rb_init (zeros 256) 0 0 0 0 EphNone [] [] 0 0
    (mkSc (zeros 16) (zeros 16) (zeros 16) (zeros 16) (zeros 16) (zeros 16) (zeros 8) (zeros 8)
       (zeros 8) (zeros 16) (zeros 16)) None false.

(* osdp_pd.c:1082-1167 osdp_pd_setup; None is the return value NULL.  pool is the number of blocks
   that the external slab allocator makes out of app_data. *)
Definition pd_setup (i : pdinfo) (blocks : Z) : option pd :=
  let f := public_flags (i_flags i) in
  match i_scbk i with
  | None => if enforce f then None
            else Some (set_pd_mode true (set_sc_capable true (set_install true
              (set_caps (set_caps_from implicit_caps (set_caps_from (i_cap i) (caps pd_zero)))
              (set_pid (i_id i) (set_pool blocks (set_seqn (-1) (set_fl f
              (set_address (i_address i) (set_baud (i_baud i) pd_zero))))))))))
  | Some k => Some (set_pd_mode true (set_sc_capable true (set_scbk k
              (set_caps (set_caps_from implicit_caps (set_caps_from (i_cap i) (caps pd_zero)))
              (set_pid (i_id i) (set_pool blocks (set_seqn (-1) (set_fl f
              (set_address (i_address i) (set_baud (i_baud i) pd_zero))))))))))
  end.

(* osdp_pd.c:1193-1199 osdp_pd_set_capabilities. *)
Definition pd_set_capabilities (l : list capent) (p : pd) : pd :=
  set_caps (set_caps_from l (caps p)) p.

(* osdp_pd.c:1201-1209 osdp_pd_set_command_callback (b: the callback is not NULL). *)
Definition pd_set_command_callback (b : bool) (p : pd) : pd := set_has_cb b p.

(* osdp_pd.c:1211-1226 osdp_pd_notify_event; false is the return value -1. *)
Definition pd_notify_event (ev : event) (p : pd) : pd * bool :=
  if zlen (evq p) <? pool p then (set_evq (evq p ++ [ev]) p, true) else (p, false).

(* osdp_pd.c:1227-1241 osdp_pd_flush_events: the number of dropped events. *)
Definition pd_flush_events (p : pd) : pd * Z := (set_evq [] p, zlen (evq p)).
