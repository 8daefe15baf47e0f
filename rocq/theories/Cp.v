(** Control panel, one attached PD: model of osdp_cp.c. *)
From Verif Require Import Base Crc Aes Rb Types Sc Phy File Pd.

(* osdp_cp.c:47-55 enum osdp_cp_error_e. *)
Inductive cperr := CNone | CGeneric | CNoData | CRetry | CYield | CInprog | CUnknown.

(* osdp_common.h:222 and 232 REPLY_INVALID, REPLY_FMT. *)
Definition REPLY_INVALID : Z := 0.
Definition REPLY_FMT : Z := 81.

(* osdp_config.h.in constants (milliseconds and counts). *)
Definition POLL_TIMEOUT : Z := 50.
Definition SC_RETRY : Z := 600000.
Definition CMD_RETRY_WAIT : Z := 800.
Definition ONLINE_RETRY_WAIT_MAX : Z := 300000.
Definition CMD_MAX_RETRIES : Z := 8.

(* osdp_cp.c:228-305 and 329-352 the cases of cp_build_command without special control flow: the payload, None
   for OSDP_CP_ERR_GENERIC.  ephemeral_data is read as struct osdp_cmd. *)
Definition build_app_cmd (p : pd) (max_len : Z) : res (option (list Z)) :=
  let c := cmd_id p in
  if c =? CMD_OUT then
    assert_len 5 max_len
      (match eph p with
       | EphCmd (COutput no cc t) => Ok (Some [c; u8 no; u8 cc; byte0 t; byte1 t])
       | _ => UB BadUnion
       end)
  else if c =? CMD_LED then
    assert_len 15 max_len
      (match eph p with
       | EphCmd (CLed r n t m) =>
           Ok (Some [c; u8 r; u8 n;
                     u8 (lp_control t); u8 (lp_on t); u8 (lp_off t); u8 (lp_on_color t);
                     u8 (lp_off_color t); byte0 (lp_timer t); byte1 (lp_timer t);
                     u8 (lp_control m); u8 (lp_on m); u8 (lp_off m); u8 (lp_on_color m);
                     u8 (lp_off_color m)])
       | _ => UB BadUnion
       end)
  else if c =? CMD_BUZ then
    assert_len 6 max_len
      (match eph p with
       | EphCmd (CBuzzer r cc on off rep) => Ok (Some [c; u8 r; u8 cc; u8 on; u8 off; u8 rep])
       | _ => UB BadUnion
       end)
  else if c =? CMD_TEXT then
    match eph p with
    | EphCmd (CText r cc tmp row col n data) =>
        assert_len (7 + n) max_len
          (do d <- take_arr data n ;
           Ok (Some ([c; u8 r; u8 cc; u8 tmp; u8 row; u8 col; u8 n] ++ d)))
    | _ => UB BadUnion
    end
  else if c =? CMD_COMSET then
    assert_len 6 max_len
      (match eph p with
       | EphCmd (CComset a b) => Ok (Some [c; u8 a; byte0 b; byte1 b; byte2 b; byte3 b])
       | _ => UB BadUnion
       end)
  else if c =? CMD_MFG then
    match eph p with
    | EphCmd (CMfg v m n data) =>
        assert_len (4 + n) max_len
          (if n >? 64 then Ok None
           else do d <- take_arr data n ;
                Ok (Some ([c; byte0 v; byte1 v; byte2 v; u8 m] ++ d)))
    | _ => UB BadUnion
    end
  else if c =? CMD_KEYSET then
    if negb (sc_active (fl p)) then Ok None
    else
      match eph p with
      | EphCmd (CKeyset ty n data) =>
          assert_len 19 max_len
            (if negb (n =? 16) then Ok None
             else
               do d <- take_arr data 16 ;
               if ty =? 1 then Ok (Some ([c; 1; 16] ++ d))
               else if ty =? 0 then Ok (Some ([c; 1; 16] ++ compute_scbk (client_uid (sc p)) d))
               else Ok None)
      | _ => UB BadUnion
      end
  else Ok None.

(* osdp_cp.c:184-397 cp_build_command: payload and, for the handshake commands, type and data byte
   of the security block. *)
Definition build_cmd_switch (e : env) (p : pd) (has_smb : bool) (max_len : Z) : res built :=
  let c := cmd_id p in
  if (c =? CMD_POLL) || (c =? CMD_LSTAT) || (c =? CMD_ISTAT) || (c =? CMD_OSTAT)
     || (c =? CMD_RSTAT) then assert_len 1 max_len (Ok (p, Some [c], None, []))
  else if (c =? CMD_ID) || (c =? CMD_CAP) then
    assert_len 2 max_len (Ok (p, Some [c; 0], None, []))
  else if c =? CMD_ACURXSIZE then Ok (p, Some [c; 0; 1], None, [])
  else if c =? CMD_KEEPACTIVE then Ok (p, Some [c; 0; 0], None, [])
  else if c =? CMD_ABORT then Ok (p, Some [c], None, [])
  else if c =? CMD_FILETRANSFER then
    do x <- file_tx_build e p max_len ;
    match x with
    | (p1, Some l, o) => Ok (p1, Some (c :: l), None, o)
    | (p1, None, o) => Ok (p1, Some [CMD_ABORT], None, o)
    end
  else if c =? CMD_CHLNG then
    assert_len 9 max_len
      (if negb has_smb then Ok (p, None, None, [])
       else Ok (p, Some (c :: cp_random (sc p)),
                Some (SCS_11, if use_scbkd (fl p) then 0 else 1), []))
  else if c =? CMD_SCRYPT then
    assert_len 17 max_len
      (if negb has_smb then Ok (p, None, None, [])
       else let p1 := compute_cp_cryptogram p in
            Ok (p1, Some (c :: cp_crypt (sc p1)),
                Some (SCS_13, if use_scbkd (fl p) then 0 else 1), []))
  else do o <- build_app_cmd p max_len ; Ok (p, o, None, []).

(* osdp_cp.c:184-397 cp_build_command: the complete packet, None for a negative return value. *)
Definition build_command (e : env) (p : pd) (l : list Z) (buf_len : Z)
  : res (pd * option (list Z) * list out) :=
  let max_len := buf_len - data_offset p l in
  if max_len <=? 0 then Ok (p, None, [])
  else
    let smb := smb_pos p l in
    do x <- build_cmd_switch e p (match smb with Some _ => true | None => false end) max_len ;
    match x with
    | (p1, None, _, o) => Ok (p1, None, o)
    | (p1, Some pay, ss, o) =>
        let f0 := l ++ pay in
        let f1 := match smb, ss with
                  | Some pos, Some (ty, b) => put_smb pos ty b f0
                  | _, _ => f0
                  end in
        let f2 := match smb with
                  | Some pos =>
                      if (getb f1 (pos + 1) >? SCS_14) && sc_active (fl p1) then
                        upd (Z.to_nat pos + 1) (if zlen pay >? 1 then SCS_17 else SCS_15)
                          (upd (Z.to_nat pos) 2 f1)
                      else f1
                  | None => f1
                  end in
        Ok (p1, Some f2, o)
    end.

(* osdp_cp.c:449-461 entries of the capability report. *)
Fixpoint read_caps (fuel : nat) (b : list Z) (cs : list capent) : list capent :=
  match fuel with
  | O => cs
  | S f =>
      match b with
      | fc :: comp :: num :: t =>
          if fc >=? CAP_SENTINEL then cs
          else read_caps f t (upd (Z.to_nat fc) (mkCap fc comp num) cs)
      | _ => cs
      end
  end.

(* osdp_cp.c:487-489 and 507-509: `mask |= !!buf[pos++] << i`. *)
Fixpoint bits_mask (i : Z) (b : list Z) : Z :=
  match b with
  | [] => 0
  | x :: t => (if x =? 0 then 0 else 2 ^ i) + bits_mask (i + 1) t
  end.

(* memcpy(pd->ephemeral_data, &event, ...); make_request(pd, CP_REQ_EVENT_SEND)
   (osdp_cp.c:494-495 and others). *)
Definition got_event (ev : event) (p : pd) : pd := set_rq_event true (set_eph (EphEv ev) p).

(* osdp_cp.c:479-518 REPLY_OSTATR / REPLY_ISTATR. *)
Definition dec_mask (p : pd) (fc ty : Z) (d : list Z) : res (pd * cperr * list out) :=
  if negb (zlen d =? c_num (cap_at p fc)) || (zlen d >? 32) then Ok (p, CGeneric, [])
  else Ok (got_event (EStatus ty (zlen d) (bits_mask 0 d)) p, CNone, []).

(* `!!x` *)
Definition nz (x : Z) : Z := if x =? 0 then 0 else 1.

(* osdp_cp.c:423-443 REPLY_PDID. *)
Definition read_id (d : list Z) : pdid :=
  let b i := getb d i in
  mkId (b 4) (b 3) (le24 (b 0) (b 1) (b 2)) (le32 (b 5) (b 6) (b 7) (b 8))
       (le24 (b 11) (b 10) (b 9)).

(* osdp_cp.c:449-476 REPLY_PDCAP after the length test. *)
Definition read_pdcap (p : pd) (d : list Z) : pd :=
  let cs := read_caps (length d) d (caps p) in
  let p1 := set_caps cs p in
  let rx := cap_at p1 CAP_RXBUF in
  let p2 := if c_fc rx =? CAP_RXBUF then set_peer_rx (le16 (c_comp rx) (c_num rx)) p1 else p1 in
  set_sc_capable (Z.testbit (c_comp (cap_at p2 CAP_COMMSEC)) 0) p2.

(* osdp_cp.c:399-680 cp_decode_response; l is the reply byte and its data (not empty). *)
Definition decode_response (e : env) (p0 : pd) (l : list Z) : res (pd * cperr * list out) :=
  let r := getb l 0 in
  let d := from l 1 in
  let n := zlen d in
  let b i := getb d i in
  let p := set_reply_id r p0 in
  let bad := Ok (p, CGeneric, []) in
  if r =? REPLY_ACK then if negb (n =? 0) then bad else Ok (p, CNone, [])
  else if r =? REPLY_NAK then if negb (n =? 1) then bad else Ok (p, CNone, [])
  else if r =? REPLY_PDID then
    if negb (n =? 12) then bad else Ok (set_pid (read_id d) p, CNone, [])
  else if r =? REPLY_PDCAP then
    if negb (n mod 3 =? 0) then bad else Ok (read_pdcap p d, CNone, [])
  else if r =? REPLY_OSTATR then dec_mask p CAP_OUTPUT 1 d
  else if r =? REPLY_ISTATR then dec_mask p CAP_CONTACT 0 d
  else if r =? REPLY_LSTATR then
    if negb (n =? 2) then bad
    else Ok (got_event (EStatus 2 2 (nz (b 0) + 2 * nz (b 1))) p, CNone, [])
  else if r =? REPLY_RSTATR then
    if negb (n =? 1) then bad else Ok (got_event (EStatus 3 1 (nz (b 0))) p, CNone, [])
  else if r =? REPLY_COM then
    if negb (n =? 5) then bad
    else Ok (set_baud (le32 (b 1) (b 2) (b 3) (b 4)) (set_address (b 0) p), CNone, [])
  else if r =? REPLY_KEYPAD then
    if n <? 2 then bad
    else if negb (n - 2 =? b 1) then bad
    else if b 1 >? 64 then UB OobWrite
    else Ok (got_event (EKey (b 0) (b 1) (from d 2)) p, CNone, [])
  else if r =? REPLY_RAW then
    if n <? 4 then bad
    else
      let bits := le16 (b 2) (b 3) in
      let t1 := (bits + 7) / 8 in
      if negb (t1 =? n - 4) then bad
      else if t1 >? 64 then UB OobWrite
      else Ok (got_event (ECard (b 0) (b 1) 0 bits (from d 4)) p, CNone, [])
  else if r =? REPLY_FMT then Ok (p, CNone, [])
  else if r =? REPLY_BUSY then if negb (n =? 0) then bad else Ok (p, CRetry, [])
  else if r =? REPLY_MFGREP then
    if n <? 4 then bad
    else if u8 (n - 4) >? 128 then bad
    else Ok (got_event (EMfgrep (le24 (b 0) (b 1) (b 2)) (b 3) (u8 (n - 4)) (from d 4)) p,
             CNone, [])
  else if r =? REPLY_FTSTAT then
    do x <- file_stat_decode e p d ;
    match x with
    | (p1, true, o) => Ok (p1, CNone, o)
    | (p1, false, o) => Ok (p1, CGeneric, o)
    end
  else if r =? REPLY_CCRYPT then
    if sc_active (fl p) || negb (cmd_id p =? CMD_CHLNG) then bad
    else if negb (n =? 32) then bad
    else
      let p1 := compute_session_keys
                  (set_pd_crypt (sub d 16 16) (set_pd_random (sub d 8 8)
                     (set_client_uid (sub d 0 8) p))) in
      if verify_pd_cryptogram p1 then Ok (p1, CNone, []) else Ok (p1, CGeneric, [])
  else if r =? REPLY_RMAC_I then
    if sc_active (fl p) || negb (cmd_id p =? CMD_SCRYPT) then bad
    else if negb (n =? 16) then bad
    else Ok (set_r_mac d p, CNone, [])
  else Ok (p, CUnknown, []).

(* osdp_cp.c:682-690 do_event_callback. *)
Definition do_event_callback (e : env) (p : pd) : list out :=
  if e_evcb e then
    match eph p with
    | EphEv ev => [OEv (idx p) ev]
    | x => [OEvRaw (idx p) x]
    end
  else [].

(* osdp_cp.c:692-717 cp_build_and_send_packet; the boolean is "return value 0". *)
Definition build_and_send (e : env) (p : pd) : res (pd * bool * list out) :=
  let n := tx_buf_size p in
  match packet_init p n with
  | (p1, None) => Ok (p1, false, [])
  | (p1, Some l) =>
      do x <- build_command e p1 l n ;
      match x with
      | (p2, None, o) => Ok (p2, false, o)
      | (p2, Some f, o) =>
          do y <- send_packet e p2 f n ;
          match y with (p3, ok, o2) => Ok (p3, ok, o ++ o2) end
      end
  end.

(* osdp_cp.c:719-753 cp_process_reply. *)
Definition process_reply (e : env) (p : pd) : res (pd * cperr * list out) :=
  do x <- check_packet e p ;
  match x with
  | (p1, KWait) => Ok (p1, CNoData, [])
  | (p1, KNoData) => Ok (p1, CNoData, [])
  | (p1, KBusy) => Ok (p1, CRetry, [])
  | (p1, KNone) =>
      do y <- decode_packet p1 ;
      match y with
      | (p2, DErr _) => Ok (p2, CGeneric, [])
      | (p2, DData l) => decode_response e p2 l
      end
  | (p1, _) => Ok (p1, CGeneric, [])
  end.

(* osdp_cp.c:755-759 cp_sc_should_retry. *)
Definition sc_should_retry (e : env) (p : pd) : bool :=
  sc_is_capable p && negb (sc_active (fl p)) && (e_now e - sc_tstamp p >? SC_RETRY).

(* osdp_cp.c:761-799 cp_translate_cmd: the wire command, -1 if it cannot be sent. *)
Definition translate_cmd (p : pd) (c : cmd) : res (pd * Z) :=
  let p1 := set_eph (EphCmd c) p in
  match c with
  | COutput _ _ _ => Ok (p1, CMD_OUT)
  | CLed _ _ _ _ => Ok (p1, CMD_LED)
  | CBuzzer _ _ _ _ _ => Ok (p1, CMD_BUZ)
  | CText _ _ _ _ _ _ _ => Ok (p1, CMD_TEXT)
  | CComset _ _ => Ok (p1, CMD_COMSET)
  | CMfg _ _ _ _ => Ok (p1, CMD_MFG)
  | CStatus ty _ _ =>
      Ok (p1, if ty =? 0 then CMD_ISTAT else if ty =? 1 then CMD_OSTAT
              else if ty =? 2 then CMD_LSTAT else if ty =? 3 then CMD_RSTAT else -1)
  | CKeyset ty _ _ =>
      Ok (p1, if negb (ty =? 1) || negb (sc_active (fl p1)) then -1 else CMD_KEYSET)
  | CFileTx _ _ => Die Assertion
  | COther _ => Die Assertion
  end.

(* osdp_cp.c:801-809 fill_local_keyset_cmd (bytes 16..31 of keyset.data are left as they were and
   never used). *)
Definition fill_local_keyset (p : pd) : pd := set_eph (EphCmd (CKeyset 1 16 (scbk (sc p)))) p.

(* osdp_cp.c:811-816 cp_phy_running. *)
Definition phy_running (p : pd) : bool :=
  match phy_state p with PSend | PReplyWait | PWait => true | _ => false end.

(* osdp_cp.c:845-857: send, case OSDP_CP_PHY_STATE_SEND_CMD. *)
Definition phy_send (e : env) (p : pd) : res (pd * cperr * list out) :=
  do x <- build_and_send e p ;
  match x with
  | (p1, false, o) => Ok (set_phy_state PErr p1, CGeneric, o)
  | (p1, true, o) =>
      Ok (set_phy_tstamp (e_now e) (set_phy_state PReplyWait (set_reply_id REPLY_INVALID
            (state_reset false p1))), CInprog, o)
  end.

(* osdp_cp.c:858-900: case OSDP_CP_PHY_STATE_REPLY_WAIT. *)
Definition phy_reply_wait (e : env) (p : pd) : res (pd * cperr * list out) :=
  do x <- process_reply e p ;
  match x with
  | (p1, CNone, o) =>
      let p2 := set_tstamp (e_now e) p1 in
      let p3 := if sc_active (fl p2) then set_sc_tstamp (e_now e) p2 else p2 in
      Ok (set_phy_state PDone p3, CNone, o)
  | (p1, CUnknown, o) =>
      if (cmd_id p1 =? CMD_POLL) && ign_unsol (fl p1) then
        let p3 := if sc_active (fl p1) then set_sc_tstamp (e_now e) p1 else p1 in
        Ok (set_phy_state PDone p3, CNone, o)
      else Ok (set_phy_state PErr p1, CGeneric, o)
  | (p1, CGeneric, o) => Ok (set_phy_state PErr p1, CGeneric, o)
  | (p1, CRetry, o) =>
      Ok (set_phy_state PWait (set_wait_ms CMD_RETRY_WAIT (set_phy_tstamp (e_now e) p1)), CYield, o)
  | (p1, _, o) =>
      if e_now e - phy_tstamp p1 >? RESP_TOUT then
        if retry p1 <? CMD_MAX_RETRIES then
          Ok (set_phy_tstamp (e_now e) (set_retry (retry p1 + 1) (set_phy_state PWait
                (set_wait_ms CMD_RETRY_WAIT p1))), CYield, o)
        else Ok (set_phy_state PErr p1, CGeneric, o)
      else Ok (p1, CInprog, o)
  end.

(* osdp_cp.c:827-907 cp_phy_state_update. *)
Definition phy_state_update (e : env) (p : pd) : res (pd * cperr * list out) :=
  match phy_state p with
  | PDone | PIdle => Ok (p, CNone, [])
  | PErr => Ok (p, CGeneric, [])
  | PWait =>
      if e_now e - phy_tstamp p <? wait_ms p then Ok (p, CYield, [])
      else phy_send e (set_phy_state PSend p)
  | PSend => phy_send e p
  | PReplyWait => phy_reply_wait e p
  end.

(* osdp_cp.c:924-946 cp_get_online_command. *)
Definition get_online_command (e : env) (p : pd) : res (pd * Z * list out) :=
  match cmdq p with
  | c :: q =>
      do x <- translate_cmd (set_cmdq q p) c ;
      Ok (fst x, snd x, [])
  | [] =>
      match file_tx_get_command e p with
      | (p1, c, o) =>
          if negb (c =? 0) then Ok (p1, c, o)
          else if e_now e - tstamp p1 >? POLL_TIMEOUT then
            Ok (set_tstamp (e_now e) p1, CMD_POLL, o)
          else Ok (p1, -1, o)
      end
  end.

(* osdp_cp.c:1051-1064 state_get_cmd. *)
Definition state_get_cmd (e : env) (p : pd) : res (pd * Z * list out) :=
  match state p with
  | SInit => Ok (p, CMD_ID, [])
  | SCapdet => Ok (p, CMD_CAP, [])
  | SChlng => Ok (p, CMD_CHLNG, [])
  | SScrypt => Ok (p, CMD_SCRYPT, [])
  | SSetScbk => Ok (p, CMD_KEYSET, [])
  | SOnline => get_online_command e p
  | SOffline => Ok (p, -1, [])
  end.

(* osdp_cp.c:948-962, 964-979, 1224-1261: notifications are sent only with callback and flag. *)
Definition notify (e : env) (p : pd) (ty a0 a1 : Z) : list out :=
  if e_evcb e && notif (fl p) then [OEv (idx p) (ENotif ty a0 a1)] else [].

(* C: a bool stored in an int. *)
Definition b2z (b : bool) : Z := if b then 1 else 0.

(* osdp_cp.c:948-962 notify_pd_status (arg1 is not initialised: 0 here). *)
Definition notify_pd_status (e : env) (p : pd) (online : bool) : list out :=
  notify e p 2 (b2z online) 0.

(* osdp_cp.c:964-979 notify_sc_status; ISSET_FLAG yields 0 or 1. *)
Definition notify_sc_status (e : env) (p : pd) : list out :=
  notify e p 1 (b2z (sc_active (fl p))) (b2z (use_scbkd (fl p))).

(* osdp_cp.c:981-997 cp_keyset_complete. *)
Definition keyset_complete (e : env) (p : pd) : res (pd * list out) :=
  do p1 <- (if negb (use_scbkd (fl p)) then
              match eph p with
              | EphCmd (CKeyset _ _ k) => do d <- take_arr k 16 ; Ok (set_scbk d p)
              | _ => UB BadUnion
              end
            else Ok (set_use_scbkd false p)) ;
  let p2 := sc_deactivate p1 in
  let o := notify_sc_status e p2 in
  Ok (match state p2 with SOnline => set_rq_restart true p2 | _ => p2 end, o).

(* osdp_cp.c:1022-1028 replies that answer a POLL. *)
Definition poll_reply (r : Z) : bool :=
  (r =? REPLY_LSTATR) || (r =? REPLY_ISTATR) || (r =? REPLY_OSTATR) || (r =? REPLY_RSTATR)
  || (r =? REPLY_MFGREP) || (r =? REPLY_RAW) || (r =? REPLY_KEYPAD).

(* osdp_cp.c:1035-1048 replies that answer another command. *)
Definition expected_reply (c r : Z) : bool :=
  if c =? CMD_FILETRANSFER then r =? REPLY_FTSTAT
  else if c =? CMD_COMSET then r =? REPLY_COM
  else if c =? CMD_MFG then r =? REPLY_MFGREP
  else if c =? CMD_LSTAT then r =? REPLY_LSTATR
  else if c =? CMD_ISTAT then r =? REPLY_ISTATR
  else if c =? CMD_OSTAT then r =? REPLY_OSTATR
  else if c =? CMD_RSTAT then r =? REPLY_RSTATR
  else false.

(* osdp_cp.c:999-1049 cp_check_online_response. *)
Definition check_online_response (e : env) (p : pd) : res (pd * bool * list out) :=
  let r := reply_id p in
  let c := cmd_id p in
  if r =? REPLY_ACK then
    if c =? CMD_KEYSET then do x <- keyset_complete e p ; Ok (fst x, true, snd x)
    else Ok (p, true, [])
  else if (r =? REPLY_NAK) || (r =? REPLY_INVALID) then Ok (p, false, [])
  else if c =? CMD_POLL then Ok (p, poll_reply r || ign_unsol (fl p), [])
  else Ok (p, expected_reply c r, []).

(* osdp_cp.c:1066-1079 state_check_reply. *)
Definition state_check_reply (e : env) (p : pd) : res (pd * bool * list out) :=
  let r := reply_id p in
  match state p with
  | SInit => Ok (p, r =? REPLY_PDID, [])
  | SCapdet => Ok (p, r =? REPLY_PDCAP, [])
  | SChlng => Ok (p, r =? REPLY_CCRYPT, [])
  | SScrypt => Ok (p, r =? REPLY_RMAC_I, [])
  | SSetScbk => Ok (p, r =? REPLY_ACK, [])
  | SOnline => check_online_response e p
  | SOffline => Ok (p, false, [])
  end.

(* osdp_cp.c:1081-1127 get_next_ok_state. *)
Definition next_ok_state (e : env) (p : pd) : res (pd * cpstate * list out) :=
  match state p with
  | SInit => Ok (p, SCapdet, [])
  | SCapdet =>
      if sc_is_capable p then Ok (set_use_scbkd false p, SChlng, [])
      else if enforce (fl p) then Ok (p, SOffline, [])
      else Ok (p, SOnline, [])
  | SChlng => Ok (p, SScrypt, [])
  | SScrypt =>
      let p1 := set_sc_active true p in
      let o := notify_sc_status e p1 in
      if use_scbkd (fl p1) then Ok (fill_local_keyset p1, SSetScbk, o)
      else Ok (p1, SOnline, o)
  | SSetScbk => do x <- keyset_complete e p ; Ok (fst x, SChlng, snd x)
  | SOnline => Ok (p, if sc_should_retry e p then SChlng else SOnline, [])
  | SOffline => Ok (p, if e_now e - tstamp p >? wait_ms p then SInit else SOffline, [])
  end.

(* osdp_cp.c:1129-1179 get_next_err_state. *)
Definition next_err_state (e : env) (p : pd) : pd * cpstate * list out :=
  match state p with
  | SInit => (p, SOffline, [])
  | SCapdet => (p, SOffline, [])
  | SChlng =>
      if enforce (fl p) then (p, SOffline, [])
      else if negb (use_scbkd (fl p)) then (set_use_scbkd true p, SChlng, [])
      else (set_sc_tstamp (e_now e) (set_use_scbkd false p), SOnline, [])
  | SScrypt => (p, if enforce (fl p) then SOffline else SOnline, [])
  | SSetScbk =>
      let p1 := sc_deactivate p in
      (p1, if enforce (fl p1) || use_scbkd (fl p1) then SOffline else SOnline,
       notify_sc_status e p1)
  | SOnline => (p, SOffline, [])
  | SOffline => (p, SOffline, [])
  end.

(* osdp_cp.c:1186-1222 cp_state_change. *)
Definition state_change (e : env) (p : pd) (next : cpstate) : pd * list out :=
  match next with
  | SInit => (set_state next (state_reset true p), [])
  | SOnline => (set_state next p, notify_pd_status e p true)
  | SOffline =>
      let p1 := sc_deactivate (set_wait_ms ONLINE_RETRY_WAIT_MAX (set_tstamp (e_now e) p)) in
      (set_state next p1, notify_sc_status e p1 ++ notify_pd_status e p1 true)
  | SChlng => (set_state next (sc_setup (e_rand e) p), [])
  | _ => (set_state next p, [])
  end.

(* osdp_cp.c:1235-1252: the application command that a wire command stands for. *)
Definition app_cmd_of (p : pd) : option Z :=
  let c := cmd_id p in
  if c =? CMD_OUT then Some 1 else if c =? CMD_LED then Some 2 else if c =? CMD_BUZ then Some 3
  else if c =? CMD_TEXT then Some 4 else if c =? CMD_COMSET then Some 6
  else if (c =? CMD_ISTAT) || (c =? CMD_OSTAT) || (c =? CMD_LSTAT) || (c =? CMD_RSTAT)
       then Some 9
  else if c =? CMD_KEYSET then Some 5
  else if (c =? CMD_MFG) && (reply_id p =? REPLY_ACK) then Some 7
  else None.

(* osdp_cp.c:1224-1261 notify_command_status. *)
Definition notify_command_status (e : env) (p : pd) (status : bool) : list out :=
  match app_cmd_of p with
  | Some a => notify e p 0 a (b2z status)
  | None => []
  end.

(* C: == on enum osdp_cp_state_e (osdp_cp.c:1301). *)
Definition st_eqb (a b : cpstate) : bool :=
  match a, b with
  | SInit, SInit | SCapdet, SCapdet | SChlng, SChlng | SScrypt, SScrypt | SSetScbk, SSetScbk
  | SOnline, SOnline | SOffline, SOffline => true
  | _, _ => false
  end.

(* osdp_cp.c:1301-1313: pending requests. *)
Definition do_requests (e : env) (p : pd) (next : cpstate) : pd * cpstate * list out :=
  if st_eqb (state p) SOnline || st_eqb next SOnline then
    let '(p1, n1) := if rq_restart p then (state_reset true (set_rq_restart false p), SChlng)
                     else (p, next) in
    let '(p2, n2) := if rq_offline p1 then (set_rq_offline false p1, SOffline) else (p1, n1) in
    if rq_event p2 then (set_rq_event false p2, n2, do_event_callback e p2) else (p2, n2, [])
  else (p, next, []).

(* osdp_cp.c:1299-1318: end of state_update. *)
Definition finish_update (e : env) (cur : cpstate) (p : pd) (ok : bool) (o : list out)
  : res (pd * cperr * list out) :=
  do x <- (if ok then next_ok_state e p else Ok (next_err_state e p)) ;
  match x with
  | (p1, next, o1) =>
      match do_requests e p1 next with
      | (p2, n2, o2) =>
          if st_eqb cur n2 then Ok (p2, CYield, o ++ o1 ++ o2)
          else let (p3, o3) := state_change e p2 n2 in Ok (p3, CYield, o ++ o1 ++ o2 ++ o3)
      end
  end.

(* osdp_cp.c:1276-1297: the switch on phy_state. *)
Definition after_phy (e : env) (cur : cpstate) (p : pd) (o : list out)
  : res (pd * cperr * list out) :=
  match phy_state p with
  | PIdle =>
      do x <- state_get_cmd e p ;
      match x with
      | (p1, c, o1) =>
          let p2 := set_cmd_id c p1 in
          if c >? 0 then Ok (set_phy_state PSend p2, CYield, o ++ o1)
          else finish_update e cur p2 true (o ++ o1)
      end
  | PErr =>
      do x <- state_check_reply e p ;
      match x with
      | (p1, st, o1) =>
          finish_update e cur (state_reset false p1) false
            (o ++ o1 ++ notify_command_status e p1 st)
      end
  | PDone =>
      do x <- state_check_reply e p ;
      match x with
      | (p1, st, o1) =>
          finish_update e cur (state_reset false p1) st
            (o ++ o1 ++ notify_command_status e p1 st)
      end
  | _ => Die Assertion
  end.

(* osdp_cp.c:1263-1319 state_update. *)
Definition state_update (e : env) (p : pd) : res (pd * cperr * list out) :=
  let cur := state p in
  if phy_running p then
    do x <- phy_state_update e p ;
    match x with
    | (p1, CInprog, o) => Ok (p1, CInprog, o)
    | (p1, CYield, o) => Ok (p1, CYield, o)
    | (p1, _, o) => after_phy e cur p1 o
    end
  else after_phy e cur p [].

(* osdp_cp.c:1560-1586 osdp_cp_send_command (index in range); the boolean is "return value 0". *)
Definition cp_send_command (e : env) (p : pd) (c : cmd) : pd * bool * list out :=
  if negb (st_eqb (state p) SOnline) then (p, false, [])
  else
    let enqueue := if zlen (cmdq p) <? pool p then (set_cmdq (cmdq p ++ [c]) p, true, [])
                   else (p, false, []) in
    match c with
    | CFileTx id flags => file_tx_command e p id flags
    | CKeyset ty _ _ =>
        if negb (ty =? 1) || negb (sc_active (fl p)) then (p, false, []) else enqueue
    | _ => enqueue
    end.

(* osdp_cp.c:1588-1600 osdp_cp_flush_commands. *)
Definition cp_flush_commands (p : pd) : pd * Z := (set_cmdq [] p, zlen (cmdq p)).

(* osdp_cp.c:1602-1609 osdp_cp_get_pd_id. *)
Definition cp_get_pd_id (p : pd) : pdid := pid p.

(* osdp_cp.c:1611-1625 osdp_cp_get_capability: compliance level and item count. *)
Definition cp_get_capability (p : pd) (fc : Z) : option (Z * Z) :=
  if (fc <=? 0) || (fc >=? CAP_SENTINEL) then None
  else Some (c_comp (cap_at p fc), c_num (cap_at p fc)).

(* osdp_cp.c:1627-1645 osdp_cp_modify_flag; enf, inst, ign: the three permitted bits, other: any
   other bit of the argument is set.  false is the return value -1. *)
Definition cp_modify_flag (enf inst ign other do_set : bool) (p : pd) : pd * bool :=
  if other then (p, false)
  else
    let p1 := if enf then set_enforce do_set p else p in
    let p2 := if inst then set_install do_set p1 else p1 in
    (if ign then set_ign_unsol do_set p2 else p2, true).
