(** Secure channel primitives: model of osdp_sc.c on top of the tiny-AES model. *)
From Verif Require Import Base Aes Rb Types.

(* osdp_sc.c:9 OSDP_SC_EOM_MARKER = 0x80. *)
Definition EOM : Z := 128.

(* osdp_common.h:115 AES_PAD_LEN. *)
Definition aes_pad_len (x : Z) : Z := (x + 15) / 16 * 16.

(* osdp_sc.c:12-15 osdp_scbk_default. *)
Definition scbk_default : list Z :=
  [48; 49; 50; 51; 52; 53; 54; 55; 56; 57; 58; 59; 60; 61; 62; 63].

(* osdp_sc.c:17-26 osdp_compute_scbk. *)
Definition compute_scbk (client_uid master_key : list Z) : list Z :=
  aes_ecb_encrypt master_key (firstn 8 client_uid ++ map inv8 (firstn 8 client_uid)).

(* osdp_sc.c:33-37 the key used for the session. *)
Definition session_base_key (use_default : bool) (s : schan) : list Z :=
  if use_default then scbk_default else scbk s.

(* osdp_sc.c:39-54 the block that is encrypted into one session key. *)
Definition session_block (b0 b1 : Z) (cp_rnd : list Z) : list Z :=
  [b0; b1] ++ firstn 6 cp_rnd ++ zeros 8.

(* osdp_sc.c:28-59 osdp_compute_session_keys. *)
Definition compute_session_keys (p : pd) : pd :=
  let k := session_base_key (use_scbkd (fl p)) (sc p) in
  let r := cp_random (sc p) in
  set_s_mac2 (aes_ecb_encrypt k (session_block 1 2 r))
    (set_s_mac1 (aes_ecb_encrypt k (session_block 1 1 r))
       (set_s_enc (aes_ecb_encrypt k (session_block 1 130 r)) p)).

(* osdp_sc.c:64-66 (and 92-94) value of the CP cryptogram. *)
Definition cp_cryptogram_of (s : schan) : list Z :=
  aes_ecb_encrypt (s_enc s) (firstn 8 (pd_random s) ++ firstn 8 (cp_random s)).

(* osdp_sc.c:105-107 (and 115-117) value of the PD cryptogram. *)
Definition pd_cryptogram_of (s : schan) : list Z :=
  aes_ecb_encrypt (s_enc s) (firstn 8 (cp_random s) ++ firstn 8 (pd_random s)).

(* osdp_sc.c:61-67 osdp_compute_cp_cryptogram. *)
Definition compute_cp_cryptogram (p : pd) : pd := set_cp_crypt (cp_cryptogram_of (sc p)) p.

(* osdp_sc.c:102-108 osdp_compute_pd_cryptogram. *)
Definition compute_pd_cryptogram (p : pd) : pd := set_pd_crypt (pd_cryptogram_of (sc p)) p.

(* osdp_sc.c:75-85 osdp_ct_compare = 0 on buffers of the same length. *)
Fixpoint eqb_bytes (a b : list Z) : bool :=
  match a, b with
  | [], [] => true
  | x :: a', y :: b' => (x =? y) && eqb_bytes a' b'
  | _, _ => false
  end.

(* osdp_sc.c:87-100 osdp_verify_cp_cryptogram; true is the return value 0. *)
Definition verify_cp_cryptogram (p : pd) : bool :=
  eqb_bytes (cp_crypt (sc p)) (cp_cryptogram_of (sc p)).

(* osdp_sc.c:110-123 osdp_verify_pd_cryptogram; true is the return value 0. *)
Definition verify_pd_cryptogram (p : pd) : bool :=
  eqb_bytes (pd_crypt (sc p)) (pd_cryptogram_of (sc p)).

(* osdp_sc.c:128-130 value of R-MAC-I. *)
Definition rmac_i_of (s : schan) : list Z :=
  aes_ecb_encrypt (s_mac2 s) (aes_ecb_encrypt (s_mac1 s) (cp_crypt s)).

(* osdp_sc.c:125-131 osdp_compute_rmac_i. *)
Definition compute_rmac_i (p : pd) : pd := set_r_mac (rmac_i_of (sc p)) p.

(* osdp_sc.c:146-149 and 175-178: initialisation vector of the data block cipher. *)
Definition data_iv (is_cmd : bool) (s : schan) : list Z :=
  map inv8 (if is_cmd then r_mac s else c_mac s).

(* osdp_sc.c:170-174: end marker and zero padding up to a multiple of 16. *)
Definition pad_data (data : list Z) : list Z :=
  data ++ [EOM] ++ zeros (Z.to_nat (aes_pad_len (zlen data + 1) - zlen data - 1)).

(* osdp_sc.c:165-183 osdp_encrypt_data: the encrypted block that replaces [data]. *)
Definition encrypt_data (is_cmd : bool) (s : schan) (data : list Z) : list Z :=
  aes_cbc_encrypt (s_enc s) (data_iv is_cmd s) (pad_data data).

(* osdp_sc.c:153-159 search for the end marker, on the reversed block: number of bytes before it. *)
Fixpoint eom_rev (r : list Z) : option nat :=
  match r with
  | [] => None
  | b :: t =>
      if b =? EOM then Some (length t)
      else match t with
           | [] => None
           | _ => if b =? 0 then eom_rev t else None
           end
  end.

(* osdp_sc.c:133-163 osdp_decrypt_data for a length that is not negative: the block as left in
   memory and the length of the clear text; None is the return value -1.  With length 0 and
   without the tolerant flag the C code looks at data[-1] (the id byte, inside the packet buffer)
   and below and always returns a negative value. *)
Definition decrypt_data (is_cmd empty_ok : bool) (s : schan) (data : list Z)
  : option (list Z * Z) :=
  if negb (Z.rem (zlen data) 16 =? 0) then None
  else if zlen data =? 0 then (if empty_ok then Some ([], 0) else None)
  else
    let d := aes_cbc_decrypt (s_enc s) (data_iv is_cmd s) data in
    match eom_rev (rev d) with
    | None => None
    | Some n => Some (upd n 0 d, Z.of_nat n)
    end.

(* osdp_sc.c:192-196: padding of the message for the MAC. *)
Definition mac_pad (data : list Z) : list Z :=
  if Z.rem (zlen data) 16 =? 0 then data
  else data ++ [128] ++ zeros (Z.to_nat (aes_pad_len (zlen data) - zlen data - 1)).

(* osdp_sc.c:204-213: value of the MAC for initialisation vector iv; [data] is not empty. *)
Definition mac_of (k1 k2 iv data : list Z) : list Z :=
  let b := mac_pad data in
  let n := zlen b in
  let iv1 := if 16 <? n then from (aes_cbc_encrypt k1 iv (firstn (Z.to_nat (n - 16)) b)) (n - 32)
             else iv in
  aes_cbc_encrypt k2 iv1 (from b (n - 16)).

(* osdp_sc.c:185-217 osdp_compute_mac.  For length 0 the C code writes to buf - 16. *)
Definition compute_mac (is_cmd : bool) (p : pd) (data : list Z) : res pd :=
  if zlen data =? 0 then UB OobWrite
  else
    let s := sc p in
    let m := mac_of (s_mac1 s) (s_mac2 s) (if is_cmd then r_mac s else c_mac s) data in
    Ok (if is_cmd then set_c_mac m p else set_r_mac m p).

(* osdp_sc.c:219-245 osdp_sc_setup; rnd are the bytes of osdp_fill_random. *)
Definition sc_setup (rnd : list Z) (p : pd) : pd :=
  let keep := pd_mode (fl p) || has_scbk (fl p) in
  let z := zeros 16 in
  let k := if keep then scbk (sc p) else z in
  let i := pid p in
  if pd_mode (fl p) then
    set_sc (mkSc k z z z z z (zeros 8) (zeros 8)
              [byte0 (id_vendor i); byte1 (id_vendor i); byte0 (id_model i); byte1 (id_version i);
               byte0 (id_serial i); byte1 (id_serial i); byte2 (id_serial i);
               byte3 (id_serial i)] z z) p
  else
    set_sc (mkSc k z z z z z (firstn 8 (rnd ++ zeros 8)) (zeros 8) (zeros 8) z z) p.
