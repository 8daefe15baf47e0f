(** Packet layer: model of osdp_phy.c.

    The packet buffer is the 256 byte array [pbuf]; a packet under construction is a byte list
    (mark, header, security block, payload) that is copied into [pbuf] when it is finalized. *)
From Verif Require Import Base Crc Aes Rb Types Sc.

(* osdp_phy.c:10-14. *)
Definition PKT_MARK : Z := 255.
Definition PKT_SOM : Z := 83.
(* osdp_config.h.in OSDP_PACKET_BUF_SIZE. *)
Definition PBUF_SIZE : Z := 256.
(* osdp_common.h:190-260 command, reply and security block codes used in this file. *)
Definition CMD_KEYSET : Z := 117.
Definition CMD_CHLNG : Z := 118.
Definition CMD_SCRYPT : Z := 119.
Definition REPLY_ACK : Z := 64.
Definition REPLY_NAK : Z := 65.
Definition REPLY_CCRYPT : Z := 118.
Definition REPLY_RMAC_I : Z := 120.
Definition REPLY_BUSY : Z := 121.
Definition SCS_11 : Z := 17.
Definition SCS_12 : Z := 18.
Definition SCS_13 : Z := 19.
Definition SCS_14 : Z := 20.
Definition SCS_15 : Z := 21.
Definition SCS_16 : Z := 22.
Definition SCS_17 : Z := 23.
Definition SCS_18 : Z := 24.

(* osdp_common.h:304-347 enum osdp_pkt_errors_e. *)
Inductive pkterr :=
| KNone | KFmt | KWait | KSkip | KCheck | KBusy | KNack | KBuild | KNoData.

(* osdp_phy.c:12-14: bits of the control byte. *)
Definition ctl_seq (c : Z) : Z := Z.land c 3.
Definition ctl_crc (c : Z) : bool := Z.testbit c 2.
Definition ctl_scb (c : Z) : bool := Z.testbit c 3.

(* osdp_phy.c:26-29 packet_has_mark, used as a number (0 or 1). *)
Definition mark_len (p : pd) : Z := if has_mark (fl p) then 1 else 0.

(* pd->reply_id = REPLY_NAK; pd->ephemeral_data[0] = code (osdp_phy.c:489-490 and many others). *)
Definition nak (code : Z) (p : pd) : pd := set_eph (EphNak code) (set_reply_id REPLY_NAK p).

(* osdp_common.h:553-558 sc_deactivate (the teardown hook of tiny-AES does nothing). *)
Definition sc_deactivate (p : pd) : pd := set_sc_active false p.

(* osdp_common.h:536-540 sc_is_capable. *)
Definition sc_is_capable (p : pd) : bool := sc_capable (fl p) && negb (sc_disabled (fl p)).

(* osdp_common.h:500-509 get_tx_buf_size. *)
Definition tx_buf_size (p : pd) : Z :=
  if peer_rx p =? 0 then PBUF_SIZE else Z.min PBUF_SIZE (peer_rx p).

(* osdp_phy.c:52-80 osdp_channel_receive.  channel.recv is asked for at most 64 bytes, so at most
   64 bytes of each chunk count.  Returns the total, or -1 on ring buffer overflow. *)
Fixpoint channel_receive (chunks : list (list Z)) (r : rbuf) (total : Z) : rbuf * Z :=
  match chunks with
  | [] => (r, total)
  | c0 :: cs =>
      let c := firstn 64 c0 in
      if zlen c =? 0 then (r, total)
      else
        let (r1, n) := rb_push_buf r c in
        if negb (n =? zlen c) then (r1, -1)
        else if zlen c =? 64 then channel_receive cs r1 (total + zlen c)
        else (r1, total + zlen c)
  end.

(* osdp_phy.c:95-105 osdp_phy_get_seq_number. *)
Definition get_seq (inc : bool) (p : pd) : pd * Z :=
  let s := if inc then (let s1 := seqn p + 1 in if 3 <? s1 then 1 else s1) else seqn p in
  (set_seqn s p, Z.land s 3).

(* osdp_phy.c:132-139 osdp_phy_in_sc_handshake. *)
Definition in_sc_handshake (is_reply : bool) (id : Z) : bool :=
  if is_reply then (id =? REPLY_CCRYPT) || (id =? REPLY_RMAC_I)
  else (id =? CMD_CHLNG) || (id =? CMD_SCRYPT).

(* osdp_phy.c:141-193 osdp_phy_packet_init: mark, header and security block as written to the
   start of the buffer; None is OSDP_ERR_PKT_FMT.  The two length bytes are written later by
   packet_finalize (0 here); data[2] of a handshake block keeps the byte that is in the buffer.
   PKT_SKIP_MARK is never set. *)
Definition packet_init (p : pd) (max_len : Z) : pd * option (list Z) :=
  if max_len <? 69 then (p, None)
  else
    let isp := pd_mode (fl p) in
    let p1 := if isp then p else set_has_mark true p in
    let mk := if has_mark (fl p1) then [PKT_MARK] else [] in
    let bc := isp && broadcast (fl p1) in
    let addr := if isp then Z.lor (if bc then 127 else Z.land (address p1) 127) 128
                else Z.land (address p1) 127 in
    let p2 := if bc then set_broadcast false p1 else p1 in
    let id := if isp then reply_id p2 else cmd_id p2 in
    let (p3, s) := get_seq (negb isp) p2 in
    let ctl := Z.lor s 4 in
    let hdr :=
      if sc_active (fl p3) then [PKT_SOM; addr; 0; 0; Z.lor ctl 8; 2; SCS_15]
      else if in_sc_handshake isp id then
        [PKT_SOM; addr; 0; 0; Z.lor ctl 8; 3; SCS_11; getb (pbuf p3) (mark_len p3 + 7)]
      else [PKT_SOM; addr; 0; 0; ctl] in
    (set_pbuf (blit (pbuf p3) 0 (mk ++ hdr)) p3, Some (mk ++ hdr)).

(* osdp_phy.c:107-122 osdp_phy_packet_get_data_offset on a packet under construction. *)
Definition data_offset (p : pd) (l : list Z) : Z :=
  mark_len p + 5 + (if ctl_scb (getb l (mark_len p + 4)) then getb l (mark_len p + 5) else 0).

(* osdp_phy.c:124-130 osdp_phy_packet_get_smb: position of the security block, if any. *)
Definition smb_pos (p : pd) (l : list Z) : option Z :=
  if ctl_scb (getb l (mark_len p + 4)) then Some (mark_len p + 5) else None.

(* osdp_phy.c:232-233 and 287-288: write the length field of the header. *)
Definition put_len (n : Z) (b : list Z) : list Z := upd 3 (byte1 n) (upd 2 (byte0 n) b).

(* osdp_phy.c:256-283: encryption of the data block of a packet without mark. *)
Definition fin_encrypt (p : pd) (b : list Z) (max_len : Z) : res (option (list Z)) :=
  if (getb b 6 =? SCS_17) || (getb b 6 =? SCS_18) then
    let off := 5 + getb b 5 + 1 in
    let data := from b off in
    if aes_pad_len (zlen data + 1) >? max_len then Ok None
    else if mark_len p + off + aes_pad_len (zlen data + 1) >? PBUF_SIZE then UB OobWrite
    else Ok (Some (firstn (Z.to_nat off) b ++ encrypt_data (negb (pd_mode (fl p))) (sc p) data))
  else Ok (Some b).

(* osdp_phy.c:195-305 osdp_phy_packet_finalize; None is OSDP_ERR_PKT_FMT.  The packet passed in
   must fit the packet buffer (the builders check this). *)
Definition packet_finalize (p : pd) (l : list Z) (max_len : Z) : res (pd * option (list Z)) :=
  if zlen l <=? 5 then Ok (p, None)
  else if has_mark (fl p) && negb (getb l 0 =? PKT_MARK) then Ok (p, None)
  else
    let b0 := if has_mark (fl p) then from l 1 else l in
    let maxl := max_len - mark_len p in
    if negb (getb b0 0 =? PKT_SOM) then Ok (p, None)
    else
      let b1 := put_len (zlen b0 + 2) b0 in
      let is_cp := negb (pd_mode (fl p)) in
      do r <- (if sc_active (fl p) && ctl_scb (getb b1 4) && (SCS_15 <=? getb b1 6) then
                 do o <- fin_encrypt p b1 maxl ;
                 match o with
                 | None => Ok (p, None)
                 | Some b2 =>
                     if zlen b2 + 4 >? maxl then Ok (p, None)
                     else
                       let b3 := put_len (zlen b2 + 6) b2 in
                       do p1 <- compute_mac is_cp p b3 ;
                       Ok (p1, Some (b3 ++ firstn 4 (if is_cp then c_mac (sc p1)
                                                     else r_mac (sc p1))))
                 end
               else Ok (p, Some b1)) ;
      match r with
      | (p1, None) => Ok (p1, None)
      | (p1, Some b4) =>
          if zlen b4 + 2 >? maxl then Ok (p1, None)
          else
            let c := compute_crc16 b4 in
            let f := (if has_mark (fl p1) then [PKT_MARK] else [])
                       ++ b4 ++ [byte0 c; byte1 c] in
            Ok (set_pbuf (blit (pbuf p1) 0 f) p1, Some f)
      end.

(* osdp_phy.c:31-50 osdp_channel_send: e_tx bytes are accepted in total. *)
Definition channel_send (e : env) (f : list Z) : Z := Z.max 0 (Z.min (e_tx e) (zlen f)).

(* osdp_phy.c:307-330 osdp_phy_send_packet; the boolean is "return value OSDP_ERR_PKT_NONE". *)
Definition send_packet (e : env) (p : pd) (l : list Z) (max_len : Z)
  : res (pd * bool * list out) :=
  do r <- packet_finalize p l max_len ;
  match r with
  | (p1, None) => Ok (p1, false, [])
  | (p1, Some f) =>
      let n := channel_send e f in
      Ok (p1, n =? zlen f, if n =? 0 then [] else [OTx (firstn (Z.to_nat n) f)])
  end.

(* osdp_phy.c:340-361: scan for the start of a packet; the boolean is "found", otherwise
   OSDP_ERR_PKT_NO_DATA.  fuel bounds the number of bytes in the ring buffer. *)
Fixpoint scan (fuel : nat) (prev : Z) (p : pd) : res (pd * bool) :=
  match fuel with
  | O => Die OutOfFuel
  | S f =>
      match rb_pop (rb p) with
      | (r1, None) => Ok (set_rb r1 p, false)
      | (r1, Some b) =>
          let p1 := set_rb r1 p in
          if b =? PKT_SOM then
            if prev =? PKT_MARK then
              Ok (set_has_mark true (set_pblen 2 (set_pbuf (blit (pbuf p1) 0 [PKT_MARK; PKT_SOM]) p1)),
                  true)
            else
              Ok (set_has_mark false (set_pblen 1 (set_pbuf (blit (pbuf p1) 0 [PKT_SOM]) p1)), true)
          else scan f b p1
      end
  end.

(* osdp_phy.c:365-367 and 524-526: append up to n bytes of the ring buffer to the packet buffer. *)
Definition collect (n : Z) (p : pd) : res pd :=
  let (r1, l) := rb_pop_buf (rb p) (Z.to_nat n) in
  if pblen p + zlen l >? PBUF_SIZE then UB OobWrite
  else Ok (set_pblen (pblen p + zlen l) (set_pbuf (blit (pbuf p) (pblen p) l) (set_rb r1 p))).

(* osdp_phy.c:372-394: validation of the five header bytes. *)
Definition check_header_bytes (p : pd) : pkterr + Z :=
  let o := mark_len p in
  let b i := getb (pbuf p) (o + i) in
  if negb (b 0 =? PKT_SOM) then inl KFmt
  else if (negb (pd_mode (fl p)) && negb (Z.testbit (b 1) 7))
          || (pd_mode (fl p) && Z.testbit (b 1) 7) then inl KSkip
  else
    let n := b 3 * 256 + b 2 in
    if (n >? PBUF_SIZE) || (n <? 6) then inl KFmt
    else inr (n + o).

(* osdp_phy.c:332-395 phy_check_header. *)
Definition check_header (p : pd) : res (pd * (pkterr + Z)) :=
  do r <- (if pblen p =? 0 then scan (S RB_SIZE) 0 p else Ok (p, true)) ;
  match r with
  | (p1, false) => Ok (p1, inl KNoData)
  | (p1, true) =>
      do p2 <- collect (5 - pblen p1) p1 ;
      if pblen p2 <? 5 then Ok (p2, inl KWait)
      else Ok (p2, check_header_bytes p2)
  end.

(* osdp_phy.c:403-430: the trailing CRC or checksum of a packet without mark is right; gives the
   length without it. *)
Definition check_crc (b : list Z) : option Z :=
  if ctl_crc (getb b 4) then
    let n := zlen b - 2 in
    if compute_crc16 (firstn (Z.to_nat n) b) =? getb b (n + 1) * 256 + getb b n
    then Some n else None
  else
    let n := zlen b - 1 in
    if compute_checksum (firstn (Z.to_nat n) b) =? getb b n then Some n else None.

(* osdp_phy.c:397-497 phy_check_packet; b is the packet without mark. *)
Definition check_packet_bytes (p : pd) (b : list Z) : pd * pkterr :=
  match check_crc b with
  | None => (p, KFmt)
  | Some n =>
      let a := Z.land (getb b 1) 127 in
      if negb (a =? address p) && negb (a =? 127) then
        (p, if pd_mode (fl p) then KSkip else KCheck)
      else
        let comp := ctl_seq (getb b 4) in
        let seq_check (q : pd) : pd * pkterr :=
          let (q1, cur) := get_seq (pd_mode (fl q)) q in
          if negb (cur =? comp) && negb (skip_seq (fl q1)) then (nak 4 q1, KNack)
          else (q1, KNone) in
        if pd_mode (fl p) then
          let p1 := if comp =? 0 then sc_deactivate (set_seqn (-1) p)
                    else if comp =? seqn p then set_seqn (seqn p - 1) p
                    else p in
          seq_check (if a =? 127 then set_broadcast true p1 else p1)
        else if (comp =? 0) && (n =? 6) && (getb b 5 =? REPLY_BUSY) then
          (set_seqn (seqn p - 1) p, KBusy)
        else seq_check p
  end.

(* osdp_phy.c:499-540 osdp_phy_check_packet (packet_scan_skip only feeds a log line). *)
Definition check_packet (e : env) (p : pd) : res (pd * pkterr) :=
  let (r1, got) := channel_receive (e_rx e) (rb p) 0 in
  let p1 := set_rb r1 p in
  let p2 := if pd_mode (fl p1) && (pblen p1 =? 0) && (got >? 0)
            then set_tstamp (e_now e) p1 else p1 in
  do h <- (if plen p2 =? 0 then
             do r <- check_header p2 ;
             match r with
             | (p3, inl er) => Ok (p3, Some er)
             | (p3, inr n) => Ok (set_plen n p3, None)
             end
           else Ok (p2, None)) ;
  match h with
  | (p3, Some er) => Ok (p3, er)
  | (p3, None) =>
      do p4 <- collect (plen p3 - pblen p3) p3 ;
      if negb (pblen p4 =? plen p4) then Ok (p4, KWait)
      else Ok (check_packet_bytes p4 (sub (pbuf p4) (mark_len p4) (plen p4 - mark_len p4)))
  end.

(* osdp_phy.c:542-710 osdp_phy_decode_packet: a code <= 0 (-6 is OSDP_ERR_PKT_NACK, which a
   negative length can also reach) or the command / reply bytes. *)
Inductive decoded := DErr (code : Z) | DData (l : list Z).

(* osdp_phy.c:708-709: return of a length that may be zero or negative. *)
Definition ret_data (b : list Z) (off len : Z) : decoded :=
  if len <=? 0 then DErr len else DData (sub b off len).

(* osdp_phy.c:631-674: MAC check and decryption; b is the packet without mark and off / len the
   position and length of the data after the security block. *)
Definition decode_secure (p : pd) (b : list Z) (mac_off off len : Z) : res (pd * decoded) :=
  let is_cmd := pd_mode (fl p) in
  do p1 <- compute_mac is_cmd p (firstn (Z.to_nat mac_off) b) ;
  let mac := if is_cmd then c_mac (sc p1) else r_mac (sc p1) in
  if negb (eqb_bytes (sub b mac_off 4) (firstn 4 mac)) then
    Ok (nak 6 (sc_deactivate p1), DErr (-6))
  else
    let len1 := len - 4 in
    if (getb b 6 =? SCS_17) || (getb b 6 =? SCS_18) then
      let n := len1 - 1 in
      if (n <? 0) && (Z.rem n 16 =? 0) then UB NegLen
      else if n <? 0 then Ok (nak 6 (sc_deactivate p1), DErr (-6))
      else
        match decrypt_data is_cmd (allow_empty (fl p1)) (sc p1) (sub b (off + 1) n) with
        | None => Ok (nak 6 (sc_deactivate p1), DErr (-6))
        | Some (d, m) =>
            Ok (set_pbuf (blit (pbuf p1) (mark_len p1 + off + 1) d) p1,
                DData (getb b off :: firstn (Z.to_nat m) d))
        end
    else Ok (p1, ret_data b off len1).

(* osdp_phy.c:542-710 osdp_phy_decode_packet. *)
Definition decode_packet (p : pd) : res (pd * decoded) :=
  let b := from (pbuf p) (mark_len p) in
  let isp := pd_mode (fl p) in
  let ctl := getb b 4 in
  let len0 := pblen p - mark_len p - (if ctl_crc ctl then 2 else 1) in
  let mac_off := len0 - 4 in
  let len1 := len0 - 5 in
  let ty := getb b 6 in
  let act := sc_active (fl p) in
  if ctl_scb ctl then
    if isp && negb (sc_is_capable p) then Ok (nak 5 p, DErr (-6))
    else if (ty <? SCS_11) || (ty >? SCS_18) then Ok (nak 6 p, DErr (-6))
    else if negb act && (ty >? SCS_14) then Ok (nak 6 p, DErr (-6))
    else
      let p1 := if ((ty =? SCS_11) || (ty =? SCS_13)) && install (fl p) && (getb b 7 =? 0)
                then set_use_scbkd true p else p in
      let off := 5 + getb b 5 in
      let len2 := len1 - getb b 5 in
      if act && (SCS_15 <=? ty) then decode_secure p1 b mac_off off len2
      else Ok (p1, ret_data b off len2)
  else
    let act1 := if isp then act
                else act && negb ((cmd_id p =? CMD_KEYSET) && (getb b 5 =? REPLY_ACK))
                         && negb (getb b 5 =? REPLY_NAK) in
    if act1 then Ok (nak 6 p, DErr (-6))
    else Ok (p, ret_data b 5 len1).

(* osdp_phy.c:712-724 osdp_phy_state_reset. *)
Definition state_reset (is_error : bool) (p : pd) : pd :=
  let p1 := set_phy_state PIdle (set_plen 0 (set_pblen 0 p)) in
  if is_error then set_seqn (-1) (set_retry 0 p1) else p1.
