(** State of the library: model of the structures in osdp_common.h, osdp_file.h and
    include/osdp.h.  Setters named set_x model the C assignment to the field x. *)
From Verif Require Import Base Rb.

(* include/osdp.h, struct osdp_cmd_led_params (timer_count is unused in permanent records). *)
Record ledp := mkLedp { lp_control : Z; lp_on : Z; lp_off : Z; lp_on_color : Z; lp_off_color : Z;
                        lp_timer : Z }.

(* include/osdp.h, struct osdp_cmd: the tagged union of application commands.  Array members hold
   the array content; [length] fields are separate, as in C.  [COther id] is any other value of
   the id field. *)
Inductive cmd :=
| COutput (output_no control_code timer_count : Z)
| CLed (reader led_number : Z) (temporary permanent : ledp)
| CBuzzer (reader control_code on_count off_count rep_count : Z)
| CText (reader control_code temp_time offset_row offset_col len : Z) (data : list Z)
| CKeyset (ktype len : Z) (data : list Z)
| CComset (address baud_rate : Z)
| CMfg (vendor_code command len : Z) (data : list Z)
| CFileTx (file_id file_flags : Z)
| CStatus (stype nr_entries mask : Z)
| COther (id : Z).

(* include/osdp.h, struct osdp_event. *)
Inductive event :=
| ECard (reader_no format direction len : Z) (data : list Z)
| EKey (reader_no len : Z) (data : list Z)
| EMfgrep (vendor_code command len : Z) (data : list Z)
| EStatus (stype nr_entries mask : Z)
| ENotif (ntype arg0 arg1 : Z)
| EOther (etype : Z).

(* osdp_common.h:418 ephemeral_data: one buffer shared by command, event, NAK code and key.  The
   model remembers which view was written last; reading it through another view is outcome
   [UB BadUnion] (PD and CP build) or an explicit [OEvRaw] output (CP event callback). *)
Inductive ephem :=
| EphNone
| EphNak (code : Z)
| EphCmd (c : cmd)
| EphEv (e : event)
| EphKey (k : list Z).

(* include/osdp.h, struct osdp_pd_id. *)
Record pdid := mkId { id_version : Z; id_model : Z; id_vendor : Z; id_serial : Z; id_fw : Z }.

(* include/osdp.h, struct osdp_pd_cap. *)
Record capent := mkCap { c_fc : Z; c_comp : Z; c_num : Z }.

(* osdp_common.h:263-276 and include/osdp.h OSDP_FLAG_*: the bits of pd->flags that the modelled
   code uses, one boolean each.  PKT_SKIP_MARK (CONFIG_OSDP_SKIP_MARK_BYTE) is not modelled: it is
   off in the default configuration. *)
Record flagset := mkFlags {
  sc_capable : bool  (* osdp_common.h:263 PD_FLAG_SC_CAPABLE *);
  skip_seq : bool  (* osdp_common.h:267 PD_FLAG_SKIP_SEQ_CHECK *);
  use_scbkd : bool  (* osdp_common.h:268 PD_FLAG_SC_USE_SCBKD *);
  sc_active : bool  (* osdp_common.h:269 PD_FLAG_SC_ACTIVE *);
  pd_mode : bool  (* osdp_common.h:270 PD_FLAG_PD_MODE *);
  chn_shared : bool  (* osdp_common.h:271 PD_FLAG_CHN_SHARED *);
  has_mark : bool  (* osdp_common.h:273 PD_FLAG_PKT_HAS_MARK *);
  has_scbk : bool  (* osdp_common.h:274 PD_FLAG_HAS_SCBK *);
  sc_disabled : bool  (* osdp_common.h:275 PD_FLAG_SC_DISABLED *);
  broadcast : bool  (* osdp_common.h:276 PD_FLAG_PKT_BROADCAST *);
  enforce : bool  (* osdp.h OSDP_FLAG_ENFORCE_SECURE *);
  install : bool  (* osdp.h OSDP_FLAG_INSTALL_MODE *);
  ign_unsol : bool  (* osdp.h OSDP_FLAG_IGN_UNSOLICITED *);
  notif : bool  (* osdp.h OSDP_FLAG_ENABLE_NOTIFICATION *);
  allow_empty : bool  (* osdp.h OSDP_FLAG_ALLOW_EMPTY_ENCRYPTED_DATA_BLOCK *)
}.

(* assignment to the field at osdp_common.h:263 PD_FLAG_SC_CAPABLE *)
Definition fset_sc_capable (v : bool) (r : flagset) : flagset :=
  mkFlags v (skip_seq r) (use_scbkd r) (sc_active r) (pd_mode r) (chn_shared r) (has_mark r) (has_scbk r) (sc_disabled r) (broadcast r) (enforce r) (install r) (ign_unsol r) (notif r) (allow_empty r).

(* assignment to the field at osdp_common.h:267 PD_FLAG_SKIP_SEQ_CHECK *)
Definition fset_skip_seq (v : bool) (r : flagset) : flagset :=
  mkFlags (sc_capable r) v (use_scbkd r) (sc_active r) (pd_mode r) (chn_shared r) (has_mark r) (has_scbk r) (sc_disabled r) (broadcast r) (enforce r) (install r) (ign_unsol r) (notif r) (allow_empty r).

(* assignment to the field at osdp_common.h:268 PD_FLAG_SC_USE_SCBKD *)
Definition fset_use_scbkd (v : bool) (r : flagset) : flagset :=
  mkFlags (sc_capable r) (skip_seq r) v (sc_active r) (pd_mode r) (chn_shared r) (has_mark r) (has_scbk r) (sc_disabled r) (broadcast r) (enforce r) (install r) (ign_unsol r) (notif r) (allow_empty r).

(* assignment to the field at osdp_common.h:269 PD_FLAG_SC_ACTIVE *)
Definition fset_sc_active (v : bool) (r : flagset) : flagset :=
  mkFlags (sc_capable r) (skip_seq r) (use_scbkd r) v (pd_mode r) (chn_shared r) (has_mark r) (has_scbk r) (sc_disabled r) (broadcast r) (enforce r) (install r) (ign_unsol r) (notif r) (allow_empty r).

(* assignment to the field at osdp_common.h:270 PD_FLAG_PD_MODE *)
Definition fset_pd_mode (v : bool) (r : flagset) : flagset :=
  mkFlags (sc_capable r) (skip_seq r) (use_scbkd r) (sc_active r) v (chn_shared r) (has_mark r) (has_scbk r) (sc_disabled r) (broadcast r) (enforce r) (install r) (ign_unsol r) (notif r) (allow_empty r).

(* assignment to the field at osdp_common.h:271 PD_FLAG_CHN_SHARED *)
Definition fset_chn_shared (v : bool) (r : flagset) : flagset :=
  mkFlags (sc_capable r) (skip_seq r) (use_scbkd r) (sc_active r) (pd_mode r) v (has_mark r) (has_scbk r) (sc_disabled r) (broadcast r) (enforce r) (install r) (ign_unsol r) (notif r) (allow_empty r).

(* assignment to the field at osdp_common.h:273 PD_FLAG_PKT_HAS_MARK *)
Definition fset_has_mark (v : bool) (r : flagset) : flagset :=
  mkFlags (sc_capable r) (skip_seq r) (use_scbkd r) (sc_active r) (pd_mode r) (chn_shared r) v (has_scbk r) (sc_disabled r) (broadcast r) (enforce r) (install r) (ign_unsol r) (notif r) (allow_empty r).

(* assignment to the field at osdp_common.h:274 PD_FLAG_HAS_SCBK *)
Definition fset_has_scbk (v : bool) (r : flagset) : flagset :=
  mkFlags (sc_capable r) (skip_seq r) (use_scbkd r) (sc_active r) (pd_mode r) (chn_shared r) (has_mark r) v (sc_disabled r) (broadcast r) (enforce r) (install r) (ign_unsol r) (notif r) (allow_empty r).

(* assignment to the field at osdp_common.h:275 PD_FLAG_SC_DISABLED *)
Definition fset_sc_disabled (v : bool) (r : flagset) : flagset :=
  mkFlags (sc_capable r) (skip_seq r) (use_scbkd r) (sc_active r) (pd_mode r) (chn_shared r) (has_mark r) (has_scbk r) v (broadcast r) (enforce r) (install r) (ign_unsol r) (notif r) (allow_empty r).

(* assignment to the field at osdp_common.h:276 PD_FLAG_PKT_BROADCAST *)
Definition fset_broadcast (v : bool) (r : flagset) : flagset :=
  mkFlags (sc_capable r) (skip_seq r) (use_scbkd r) (sc_active r) (pd_mode r) (chn_shared r) (has_mark r) (has_scbk r) (sc_disabled r) v (enforce r) (install r) (ign_unsol r) (notif r) (allow_empty r).

(* assignment to the field at osdp.h OSDP_FLAG_ENFORCE_SECURE *)
Definition fset_enforce (v : bool) (r : flagset) : flagset :=
  mkFlags (sc_capable r) (skip_seq r) (use_scbkd r) (sc_active r) (pd_mode r) (chn_shared r) (has_mark r) (has_scbk r) (sc_disabled r) (broadcast r) v (install r) (ign_unsol r) (notif r) (allow_empty r).

(* assignment to the field at osdp.h OSDP_FLAG_INSTALL_MODE *)
Definition fset_install (v : bool) (r : flagset) : flagset :=
  mkFlags (sc_capable r) (skip_seq r) (use_scbkd r) (sc_active r) (pd_mode r) (chn_shared r) (has_mark r) (has_scbk r) (sc_disabled r) (broadcast r) (enforce r) v (ign_unsol r) (notif r) (allow_empty r).

(* assignment to the field at osdp.h OSDP_FLAG_IGN_UNSOLICITED *)
Definition fset_ign_unsol (v : bool) (r : flagset) : flagset :=
  mkFlags (sc_capable r) (skip_seq r) (use_scbkd r) (sc_active r) (pd_mode r) (chn_shared r) (has_mark r) (has_scbk r) (sc_disabled r) (broadcast r) (enforce r) (install r) v (notif r) (allow_empty r).

(* assignment to the field at osdp.h OSDP_FLAG_ENABLE_NOTIFICATION *)
Definition fset_notif (v : bool) (r : flagset) : flagset :=
  mkFlags (sc_capable r) (skip_seq r) (use_scbkd r) (sc_active r) (pd_mode r) (chn_shared r) (has_mark r) (has_scbk r) (sc_disabled r) (broadcast r) (enforce r) (install r) (ign_unsol r) v (allow_empty r).

(* assignment to the field at osdp.h OSDP_FLAG_ALLOW_EMPTY_ENCRYPTED_DATA_BLOCK *)
Definition fset_allow_empty (v : bool) (r : flagset) : flagset :=
  mkFlags (sc_capable r) (skip_seq r) (use_scbkd r) (sc_active r) (pd_mode r) (chn_shared r) (has_mark r) (has_scbk r) (sc_disabled r) (broadcast r) (enforce r) (install r) (ign_unsol r) (notif r) v.

(* osdp_common.h:353-365 struct osdp_secure_channel *)
Record schan := mkSc {
  scbk : list Z  (* osdp_common.h:354 *);
  s_enc : list Z  (* osdp_common.h:355 *);
  s_mac1 : list Z  (* osdp_common.h:356 *);
  s_mac2 : list Z  (* osdp_common.h:357 *);
  r_mac : list Z  (* osdp_common.h:358 *);
  c_mac : list Z  (* osdp_common.h:359 *);
  cp_random : list Z  (* osdp_common.h:360 *);
  pd_random : list Z  (* osdp_common.h:361 *);
  client_uid : list Z  (* osdp_common.h:362 *);
  cp_crypt : list Z  (* osdp_common.h:363 *);
  pd_crypt : list Z  (* osdp_common.h:364 *)
}.

(* assignment to the field at osdp_common.h:354 *)
Definition cset_scbk (v : list Z) (r : schan) : schan :=
  mkSc v (s_enc r) (s_mac1 r) (s_mac2 r) (r_mac r) (c_mac r) (cp_random r) (pd_random r) (client_uid r) (cp_crypt r) (pd_crypt r).

(* assignment to the field at osdp_common.h:355 *)
Definition cset_s_enc (v : list Z) (r : schan) : schan :=
  mkSc (scbk r) v (s_mac1 r) (s_mac2 r) (r_mac r) (c_mac r) (cp_random r) (pd_random r) (client_uid r) (cp_crypt r) (pd_crypt r).

(* assignment to the field at osdp_common.h:356 *)
Definition cset_s_mac1 (v : list Z) (r : schan) : schan :=
  mkSc (scbk r) (s_enc r) v (s_mac2 r) (r_mac r) (c_mac r) (cp_random r) (pd_random r) (client_uid r) (cp_crypt r) (pd_crypt r).

(* assignment to the field at osdp_common.h:357 *)
Definition cset_s_mac2 (v : list Z) (r : schan) : schan :=
  mkSc (scbk r) (s_enc r) (s_mac1 r) v (r_mac r) (c_mac r) (cp_random r) (pd_random r) (client_uid r) (cp_crypt r) (pd_crypt r).

(* assignment to the field at osdp_common.h:358 *)
Definition cset_r_mac (v : list Z) (r : schan) : schan :=
  mkSc (scbk r) (s_enc r) (s_mac1 r) (s_mac2 r) v (c_mac r) (cp_random r) (pd_random r) (client_uid r) (cp_crypt r) (pd_crypt r).

(* assignment to the field at osdp_common.h:359 *)
Definition cset_c_mac (v : list Z) (r : schan) : schan :=
  mkSc (scbk r) (s_enc r) (s_mac1 r) (s_mac2 r) (r_mac r) v (cp_random r) (pd_random r) (client_uid r) (cp_crypt r) (pd_crypt r).

(* assignment to the field at osdp_common.h:360 *)
Definition cset_cp_random (v : list Z) (r : schan) : schan :=
  mkSc (scbk r) (s_enc r) (s_mac1 r) (s_mac2 r) (r_mac r) (c_mac r) v (pd_random r) (client_uid r) (cp_crypt r) (pd_crypt r).

(* assignment to the field at osdp_common.h:361 *)
Definition cset_pd_random (v : list Z) (r : schan) : schan :=
  mkSc (scbk r) (s_enc r) (s_mac1 r) (s_mac2 r) (r_mac r) (c_mac r) (cp_random r) v (client_uid r) (cp_crypt r) (pd_crypt r).

(* assignment to the field at osdp_common.h:362 *)
Definition cset_client_uid (v : list Z) (r : schan) : schan :=
  mkSc (scbk r) (s_enc r) (s_mac1 r) (s_mac2 r) (r_mac r) (c_mac r) (cp_random r) (pd_random r) v (cp_crypt r) (pd_crypt r).

(* assignment to the field at osdp_common.h:363 *)
Definition cset_cp_crypt (v : list Z) (r : schan) : schan :=
  mkSc (scbk r) (s_enc r) (s_mac1 r) (s_mac2 r) (r_mac r) (c_mac r) (cp_random r) (pd_random r) (client_uid r) v (pd_crypt r).

(* assignment to the field at osdp_common.h:364 *)
Definition cset_pd_crypt (v : list Z) (r : schan) : schan :=
  mkSc (scbk r) (s_enc r) (s_mac1 r) (s_mac2 r) (r_mac r) (c_mac r) (cp_random r) (pd_random r) (client_uid r) (cp_crypt r) v.

(* osdp_file.h:68-73 enum file_tx_state_e *)
Inductive fstate := FIdle | FInprog | FDone | FKeepAlive.

(* osdp_file.h:75-87 struct osdp_file (without the callbacks, which are environment arguments) *)
Record filest := mkFile {
  f_flags : Z  (* osdp_file.h:76 *);
  f_id : Z  (* osdp_file.h:77 *);
  f_state : fstate  (* osdp_file.h:78 *);
  f_len : Z  (* osdp_file.h:79 *);
  f_size : Z  (* osdp_file.h:80 *);
  f_off : Z  (* osdp_file.h:81 *);
  f_err : Z  (* osdp_file.h:82 *);
  f_cancel : bool  (* osdp_file.h:83 *);
  f_tstamp : Z  (* osdp_file.h:84 *);
  f_wait : Z  (* osdp_file.h:85 *)
}.

(* assignment to the field at osdp_file.h:76 *)
Definition ff_set_f_flags (v : Z) (r : filest) : filest :=
  mkFile v (f_id r) (f_state r) (f_len r) (f_size r) (f_off r) (f_err r) (f_cancel r) (f_tstamp r) (f_wait r).

(* assignment to the field at osdp_file.h:77 *)
Definition ff_set_f_id (v : Z) (r : filest) : filest :=
  mkFile (f_flags r) v (f_state r) (f_len r) (f_size r) (f_off r) (f_err r) (f_cancel r) (f_tstamp r) (f_wait r).

(* assignment to the field at osdp_file.h:78 *)
Definition ff_set_f_state (v : fstate) (r : filest) : filest :=
  mkFile (f_flags r) (f_id r) v (f_len r) (f_size r) (f_off r) (f_err r) (f_cancel r) (f_tstamp r) (f_wait r).

(* assignment to the field at osdp_file.h:79 *)
Definition ff_set_f_len (v : Z) (r : filest) : filest :=
  mkFile (f_flags r) (f_id r) (f_state r) v (f_size r) (f_off r) (f_err r) (f_cancel r) (f_tstamp r) (f_wait r).

(* assignment to the field at osdp_file.h:80 *)
Definition ff_set_f_size (v : Z) (r : filest) : filest :=
  mkFile (f_flags r) (f_id r) (f_state r) (f_len r) v (f_off r) (f_err r) (f_cancel r) (f_tstamp r) (f_wait r).

(* assignment to the field at osdp_file.h:81 *)
Definition ff_set_f_off (v : Z) (r : filest) : filest :=
  mkFile (f_flags r) (f_id r) (f_state r) (f_len r) (f_size r) v (f_err r) (f_cancel r) (f_tstamp r) (f_wait r).

(* assignment to the field at osdp_file.h:82 *)
Definition ff_set_f_err (v : Z) (r : filest) : filest :=
  mkFile (f_flags r) (f_id r) (f_state r) (f_len r) (f_size r) (f_off r) v (f_cancel r) (f_tstamp r) (f_wait r).

(* assignment to the field at osdp_file.h:83 *)
Definition ff_set_f_cancel (v : bool) (r : filest) : filest :=
  mkFile (f_flags r) (f_id r) (f_state r) (f_len r) (f_size r) (f_off r) (f_err r) v (f_tstamp r) (f_wait r).

(* assignment to the field at osdp_file.h:84 *)
Definition ff_set_f_tstamp (v : Z) (r : filest) : filest :=
  mkFile (f_flags r) (f_id r) (f_state r) (f_len r) (f_size r) (f_off r) (f_err r) (f_cancel r) v (f_wait r).

(* assignment to the field at osdp_file.h:85 *)
Definition ff_set_f_wait (v : Z) (r : filest) : filest :=
  mkFile (f_flags r) (f_id r) (f_state r) (f_len r) (f_size r) (f_off r) (f_err r) (f_cancel r) (f_tstamp r) v.

(* osdp_common.h:292-302 enum osdp_cp_state_e (PROBE and SENTINEL are never entered). *)
Inductive cpstate := SInit | SCapdet | SChlng | SScrypt | SSetScbk | SOnline | SOffline.

(* osdp_common.h:283-290 enum osdp_cp_phy_state_e *)
Inductive phystate := PIdle | PSend | PReplyWait | PWait | PDone | PErr.

(* osdp_common.h:382-439 struct osdp_pd.  Left out: name, logger, packet capture, packet_scan_skip (diagnostics
   only), the channel callbacks and opaque arguments (environment).  The slab and the queue share
   their blocks, so free blocks = pool - queue length. *)
Record pd := mkPd {
  idx : Z  (* osdp_common.h:385 *);
  fl : flagset  (* osdp_common.h:386 *);
  baud : Z  (* osdp_common.h:388 *);
  address : Z  (* osdp_common.h:389 *);
  seqn : Z  (* osdp_common.h:390 *);
  pid : pdid  (* osdp_common.h:391 *);
  caps : list capent  (* osdp_common.h:394 *);
  state : cpstate  (* osdp_common.h:396 *);
  phy_state : phystate  (* osdp_common.h:397 *);
  retry : Z  (* osdp_common.h:398 *);
  wait_ms : Z  (* osdp_common.h:399 *);
  tstamp : Z  (* osdp_common.h:400 *);
  sc_tstamp : Z  (* osdp_common.h:401 *);
  phy_tstamp : Z  (* osdp_common.h:402 *);
  rq_restart : bool  (* osdp_common.h:403 request bit CP_REQ_RESTART_SC *);
  rq_event : bool  (* osdp_common.h:403 request bit CP_REQ_EVENT_SEND *);
  rq_offline : bool  (* osdp_common.h:403 request bit CP_REQ_OFFLINE *);
  peer_rx : Z  (* osdp_common.h:405 *);
  rb : rbuf  (* osdp_common.h:408 *);
  pbuf : list Z  (* osdp_common.h:409 packet_buf[256] *);
  plen : Z  (* osdp_common.h:410 *);
  pblen : Z  (* osdp_common.h:411 *);
  cmd_id : Z  (* osdp_common.h:414 *);
  reply_id : Z  (* osdp_common.h:415 *);
  eph : ephem  (* osdp_common.h:418 *);
  cmdq : list cmd  (* osdp_common.h:421 (CP) *);
  evq : list event  (* osdp_common.h:422 (PD) *);
  pool : Z  (* osdp_common.h:424 number of blocks of the app_data slab *);
  chan_id : Z  (* osdp_common.h:426 channel.id *);
  sc : schan  (* osdp_common.h:427 *);
  file : option filest  (* osdp_common.h:428 *);
  has_cb : bool  (* osdp_common.h:432 command_callback is set *)
}.

(* assignment to the field at osdp_common.h:385 *)
Definition set_idx (v : Z) (r : pd) : pd :=
  mkPd v (fl r) (baud r) (address r) (seqn r) (pid r) (caps r) (state r) (phy_state r) (retry r) (wait_ms r) (tstamp r) (sc_tstamp r) (phy_tstamp r) (rq_restart r) (rq_event r) (rq_offline r) (peer_rx r) (rb r) (pbuf r) (plen r) (pblen r) (cmd_id r) (reply_id r) (eph r) (cmdq r) (evq r) (pool r) (chan_id r) (sc r) (file r) (has_cb r).

(* assignment to the field at osdp_common.h:386 *)
Definition set_fl (v : flagset) (r : pd) : pd :=
  mkPd (idx r) v (baud r) (address r) (seqn r) (pid r) (caps r) (state r) (phy_state r) (retry r) (wait_ms r) (tstamp r) (sc_tstamp r) (phy_tstamp r) (rq_restart r) (rq_event r) (rq_offline r) (peer_rx r) (rb r) (pbuf r) (plen r) (pblen r) (cmd_id r) (reply_id r) (eph r) (cmdq r) (evq r) (pool r) (chan_id r) (sc r) (file r) (has_cb r).

(* assignment to the field at osdp_common.h:388 *)
Definition set_baud (v : Z) (r : pd) : pd :=
  mkPd (idx r) (fl r) v (address r) (seqn r) (pid r) (caps r) (state r) (phy_state r) (retry r) (wait_ms r) (tstamp r) (sc_tstamp r) (phy_tstamp r) (rq_restart r) (rq_event r) (rq_offline r) (peer_rx r) (rb r) (pbuf r) (plen r) (pblen r) (cmd_id r) (reply_id r) (eph r) (cmdq r) (evq r) (pool r) (chan_id r) (sc r) (file r) (has_cb r).

(* assignment to the field at osdp_common.h:389 *)
Definition set_address (v : Z) (r : pd) : pd :=
  mkPd (idx r) (fl r) (baud r) v (seqn r) (pid r) (caps r) (state r) (phy_state r) (retry r) (wait_ms r) (tstamp r) (sc_tstamp r) (phy_tstamp r) (rq_restart r) (rq_event r) (rq_offline r) (peer_rx r) (rb r) (pbuf r) (plen r) (pblen r) (cmd_id r) (reply_id r) (eph r) (cmdq r) (evq r) (pool r) (chan_id r) (sc r) (file r) (has_cb r).

(* assignment to the field at osdp_common.h:390 *)
Definition set_seqn (v : Z) (r : pd) : pd :=
  mkPd (idx r) (fl r) (baud r) (address r) v (pid r) (caps r) (state r) (phy_state r) (retry r) (wait_ms r) (tstamp r) (sc_tstamp r) (phy_tstamp r) (rq_restart r) (rq_event r) (rq_offline r) (peer_rx r) (rb r) (pbuf r) (plen r) (pblen r) (cmd_id r) (reply_id r) (eph r) (cmdq r) (evq r) (pool r) (chan_id r) (sc r) (file r) (has_cb r).

(* assignment to the field at osdp_common.h:391 *)
Definition set_pid (v : pdid) (r : pd) : pd :=
  mkPd (idx r) (fl r) (baud r) (address r) (seqn r) v (caps r) (state r) (phy_state r) (retry r) (wait_ms r) (tstamp r) (sc_tstamp r) (phy_tstamp r) (rq_restart r) (rq_event r) (rq_offline r) (peer_rx r) (rb r) (pbuf r) (plen r) (pblen r) (cmd_id r) (reply_id r) (eph r) (cmdq r) (evq r) (pool r) (chan_id r) (sc r) (file r) (has_cb r).

(* assignment to the field at osdp_common.h:394 *)
Definition set_caps (v : list capent) (r : pd) : pd :=
  mkPd (idx r) (fl r) (baud r) (address r) (seqn r) (pid r) v (state r) (phy_state r) (retry r) (wait_ms r) (tstamp r) (sc_tstamp r) (phy_tstamp r) (rq_restart r) (rq_event r) (rq_offline r) (peer_rx r) (rb r) (pbuf r) (plen r) (pblen r) (cmd_id r) (reply_id r) (eph r) (cmdq r) (evq r) (pool r) (chan_id r) (sc r) (file r) (has_cb r).

(* assignment to the field at osdp_common.h:396 *)
Definition set_state (v : cpstate) (r : pd) : pd :=
  mkPd (idx r) (fl r) (baud r) (address r) (seqn r) (pid r) (caps r) v (phy_state r) (retry r) (wait_ms r) (tstamp r) (sc_tstamp r) (phy_tstamp r) (rq_restart r) (rq_event r) (rq_offline r) (peer_rx r) (rb r) (pbuf r) (plen r) (pblen r) (cmd_id r) (reply_id r) (eph r) (cmdq r) (evq r) (pool r) (chan_id r) (sc r) (file r) (has_cb r).

(* assignment to the field at osdp_common.h:397 *)
Definition set_phy_state (v : phystate) (r : pd) : pd :=
  mkPd (idx r) (fl r) (baud r) (address r) (seqn r) (pid r) (caps r) (state r) v (retry r) (wait_ms r) (tstamp r) (sc_tstamp r) (phy_tstamp r) (rq_restart r) (rq_event r) (rq_offline r) (peer_rx r) (rb r) (pbuf r) (plen r) (pblen r) (cmd_id r) (reply_id r) (eph r) (cmdq r) (evq r) (pool r) (chan_id r) (sc r) (file r) (has_cb r).

(* assignment to the field at osdp_common.h:398 *)
Definition set_retry (v : Z) (r : pd) : pd :=
  mkPd (idx r) (fl r) (baud r) (address r) (seqn r) (pid r) (caps r) (state r) (phy_state r) v (wait_ms r) (tstamp r) (sc_tstamp r) (phy_tstamp r) (rq_restart r) (rq_event r) (rq_offline r) (peer_rx r) (rb r) (pbuf r) (plen r) (pblen r) (cmd_id r) (reply_id r) (eph r) (cmdq r) (evq r) (pool r) (chan_id r) (sc r) (file r) (has_cb r).

(* assignment to the field at osdp_common.h:399 *)
Definition set_wait_ms (v : Z) (r : pd) : pd :=
  mkPd (idx r) (fl r) (baud r) (address r) (seqn r) (pid r) (caps r) (state r) (phy_state r) (retry r) v (tstamp r) (sc_tstamp r) (phy_tstamp r) (rq_restart r) (rq_event r) (rq_offline r) (peer_rx r) (rb r) (pbuf r) (plen r) (pblen r) (cmd_id r) (reply_id r) (eph r) (cmdq r) (evq r) (pool r) (chan_id r) (sc r) (file r) (has_cb r).

(* assignment to the field at osdp_common.h:400 *)
Definition set_tstamp (v : Z) (r : pd) : pd :=
  mkPd (idx r) (fl r) (baud r) (address r) (seqn r) (pid r) (caps r) (state r) (phy_state r) (retry r) (wait_ms r) v (sc_tstamp r) (phy_tstamp r) (rq_restart r) (rq_event r) (rq_offline r) (peer_rx r) (rb r) (pbuf r) (plen r) (pblen r) (cmd_id r) (reply_id r) (eph r) (cmdq r) (evq r) (pool r) (chan_id r) (sc r) (file r) (has_cb r).

(* assignment to the field at osdp_common.h:401 *)
Definition set_sc_tstamp (v : Z) (r : pd) : pd :=
  mkPd (idx r) (fl r) (baud r) (address r) (seqn r) (pid r) (caps r) (state r) (phy_state r) (retry r) (wait_ms r) (tstamp r) v (phy_tstamp r) (rq_restart r) (rq_event r) (rq_offline r) (peer_rx r) (rb r) (pbuf r) (plen r) (pblen r) (cmd_id r) (reply_id r) (eph r) (cmdq r) (evq r) (pool r) (chan_id r) (sc r) (file r) (has_cb r).

(* assignment to the field at osdp_common.h:402 *)
Definition set_phy_tstamp (v : Z) (r : pd) : pd :=
  mkPd (idx r) (fl r) (baud r) (address r) (seqn r) (pid r) (caps r) (state r) (phy_state r) (retry r) (wait_ms r) (tstamp r) (sc_tstamp r) v (rq_restart r) (rq_event r) (rq_offline r) (peer_rx r) (rb r) (pbuf r) (plen r) (pblen r) (cmd_id r) (reply_id r) (eph r) (cmdq r) (evq r) (pool r) (chan_id r) (sc r) (file r) (has_cb r).

(* assignment to the field at osdp_common.h:403 request bit CP_REQ_RESTART_SC *)
Definition set_rq_restart (v : bool) (r : pd) : pd :=
  mkPd (idx r) (fl r) (baud r) (address r) (seqn r) (pid r) (caps r) (state r) (phy_state r) (retry r) (wait_ms r) (tstamp r) (sc_tstamp r) (phy_tstamp r) v (rq_event r) (rq_offline r) (peer_rx r) (rb r) (pbuf r) (plen r) (pblen r) (cmd_id r) (reply_id r) (eph r) (cmdq r) (evq r) (pool r) (chan_id r) (sc r) (file r) (has_cb r).

(* assignment to the field at osdp_common.h:403 request bit CP_REQ_EVENT_SEND *)
Definition set_rq_event (v : bool) (r : pd) : pd :=
  mkPd (idx r) (fl r) (baud r) (address r) (seqn r) (pid r) (caps r) (state r) (phy_state r) (retry r) (wait_ms r) (tstamp r) (sc_tstamp r) (phy_tstamp r) (rq_restart r) v (rq_offline r) (peer_rx r) (rb r) (pbuf r) (plen r) (pblen r) (cmd_id r) (reply_id r) (eph r) (cmdq r) (evq r) (pool r) (chan_id r) (sc r) (file r) (has_cb r).

(* assignment to the field at osdp_common.h:403 request bit CP_REQ_OFFLINE *)
Definition set_rq_offline (v : bool) (r : pd) : pd :=
  mkPd (idx r) (fl r) (baud r) (address r) (seqn r) (pid r) (caps r) (state r) (phy_state r) (retry r) (wait_ms r) (tstamp r) (sc_tstamp r) (phy_tstamp r) (rq_restart r) (rq_event r) v (peer_rx r) (rb r) (pbuf r) (plen r) (pblen r) (cmd_id r) (reply_id r) (eph r) (cmdq r) (evq r) (pool r) (chan_id r) (sc r) (file r) (has_cb r).

(* assignment to the field at osdp_common.h:405 *)
Definition set_peer_rx (v : Z) (r : pd) : pd :=
  mkPd (idx r) (fl r) (baud r) (address r) (seqn r) (pid r) (caps r) (state r) (phy_state r) (retry r) (wait_ms r) (tstamp r) (sc_tstamp r) (phy_tstamp r) (rq_restart r) (rq_event r) (rq_offline r) v (rb r) (pbuf r) (plen r) (pblen r) (cmd_id r) (reply_id r) (eph r) (cmdq r) (evq r) (pool r) (chan_id r) (sc r) (file r) (has_cb r).

(* assignment to the field at osdp_common.h:408 *)
Definition set_rb (v : rbuf) (r : pd) : pd :=
  mkPd (idx r) (fl r) (baud r) (address r) (seqn r) (pid r) (caps r) (state r) (phy_state r) (retry r) (wait_ms r) (tstamp r) (sc_tstamp r) (phy_tstamp r) (rq_restart r) (rq_event r) (rq_offline r) (peer_rx r) v (pbuf r) (plen r) (pblen r) (cmd_id r) (reply_id r) (eph r) (cmdq r) (evq r) (pool r) (chan_id r) (sc r) (file r) (has_cb r).

(* assignment to the field at osdp_common.h:409 packet_buf[256] *)
Definition set_pbuf (v : list Z) (r : pd) : pd :=
  mkPd (idx r) (fl r) (baud r) (address r) (seqn r) (pid r) (caps r) (state r) (phy_state r) (retry r) (wait_ms r) (tstamp r) (sc_tstamp r) (phy_tstamp r) (rq_restart r) (rq_event r) (rq_offline r) (peer_rx r) (rb r) v (plen r) (pblen r) (cmd_id r) (reply_id r) (eph r) (cmdq r) (evq r) (pool r) (chan_id r) (sc r) (file r) (has_cb r).

(* assignment to the field at osdp_common.h:410 *)
Definition set_plen (v : Z) (r : pd) : pd :=
  mkPd (idx r) (fl r) (baud r) (address r) (seqn r) (pid r) (caps r) (state r) (phy_state r) (retry r) (wait_ms r) (tstamp r) (sc_tstamp r) (phy_tstamp r) (rq_restart r) (rq_event r) (rq_offline r) (peer_rx r) (rb r) (pbuf r) v (pblen r) (cmd_id r) (reply_id r) (eph r) (cmdq r) (evq r) (pool r) (chan_id r) (sc r) (file r) (has_cb r).

(* assignment to the field at osdp_common.h:411 *)
Definition set_pblen (v : Z) (r : pd) : pd :=
  mkPd (idx r) (fl r) (baud r) (address r) (seqn r) (pid r) (caps r) (state r) (phy_state r) (retry r) (wait_ms r) (tstamp r) (sc_tstamp r) (phy_tstamp r) (rq_restart r) (rq_event r) (rq_offline r) (peer_rx r) (rb r) (pbuf r) (plen r) v (cmd_id r) (reply_id r) (eph r) (cmdq r) (evq r) (pool r) (chan_id r) (sc r) (file r) (has_cb r).

(* assignment to the field at osdp_common.h:414 *)
Definition set_cmd_id (v : Z) (r : pd) : pd :=
  mkPd (idx r) (fl r) (baud r) (address r) (seqn r) (pid r) (caps r) (state r) (phy_state r) (retry r) (wait_ms r) (tstamp r) (sc_tstamp r) (phy_tstamp r) (rq_restart r) (rq_event r) (rq_offline r) (peer_rx r) (rb r) (pbuf r) (plen r) (pblen r) v (reply_id r) (eph r) (cmdq r) (evq r) (pool r) (chan_id r) (sc r) (file r) (has_cb r).

(* assignment to the field at osdp_common.h:415 *)
Definition set_reply_id (v : Z) (r : pd) : pd :=
  mkPd (idx r) (fl r) (baud r) (address r) (seqn r) (pid r) (caps r) (state r) (phy_state r) (retry r) (wait_ms r) (tstamp r) (sc_tstamp r) (phy_tstamp r) (rq_restart r) (rq_event r) (rq_offline r) (peer_rx r) (rb r) (pbuf r) (plen r) (pblen r) (cmd_id r) v (eph r) (cmdq r) (evq r) (pool r) (chan_id r) (sc r) (file r) (has_cb r).

(* assignment to the field at osdp_common.h:418 *)
Definition set_eph (v : ephem) (r : pd) : pd :=
  mkPd (idx r) (fl r) (baud r) (address r) (seqn r) (pid r) (caps r) (state r) (phy_state r) (retry r) (wait_ms r) (tstamp r) (sc_tstamp r) (phy_tstamp r) (rq_restart r) (rq_event r) (rq_offline r) (peer_rx r) (rb r) (pbuf r) (plen r) (pblen r) (cmd_id r) (reply_id r) v (cmdq r) (evq r) (pool r) (chan_id r) (sc r) (file r) (has_cb r).

(* assignment to the field at osdp_common.h:421 (CP) *)
Definition set_cmdq (v : list cmd) (r : pd) : pd :=
  mkPd (idx r) (fl r) (baud r) (address r) (seqn r) (pid r) (caps r) (state r) (phy_state r) (retry r) (wait_ms r) (tstamp r) (sc_tstamp r) (phy_tstamp r) (rq_restart r) (rq_event r) (rq_offline r) (peer_rx r) (rb r) (pbuf r) (plen r) (pblen r) (cmd_id r) (reply_id r) (eph r) v (evq r) (pool r) (chan_id r) (sc r) (file r) (has_cb r).

(* assignment to the field at osdp_common.h:422 (PD) *)
Definition set_evq (v : list event) (r : pd) : pd :=
  mkPd (idx r) (fl r) (baud r) (address r) (seqn r) (pid r) (caps r) (state r) (phy_state r) (retry r) (wait_ms r) (tstamp r) (sc_tstamp r) (phy_tstamp r) (rq_restart r) (rq_event r) (rq_offline r) (peer_rx r) (rb r) (pbuf r) (plen r) (pblen r) (cmd_id r) (reply_id r) (eph r) (cmdq r) v (pool r) (chan_id r) (sc r) (file r) (has_cb r).

(* assignment to the field at osdp_common.h:424 number of blocks of the app_data slab *)
Definition set_pool (v : Z) (r : pd) : pd :=
  mkPd (idx r) (fl r) (baud r) (address r) (seqn r) (pid r) (caps r) (state r) (phy_state r) (retry r) (wait_ms r) (tstamp r) (sc_tstamp r) (phy_tstamp r) (rq_restart r) (rq_event r) (rq_offline r) (peer_rx r) (rb r) (pbuf r) (plen r) (pblen r) (cmd_id r) (reply_id r) (eph r) (cmdq r) (evq r) v (chan_id r) (sc r) (file r) (has_cb r).

(* assignment to the field at osdp_common.h:426 channel.id *)
Definition set_chan_id (v : Z) (r : pd) : pd :=
  mkPd (idx r) (fl r) (baud r) (address r) (seqn r) (pid r) (caps r) (state r) (phy_state r) (retry r) (wait_ms r) (tstamp r) (sc_tstamp r) (phy_tstamp r) (rq_restart r) (rq_event r) (rq_offline r) (peer_rx r) (rb r) (pbuf r) (plen r) (pblen r) (cmd_id r) (reply_id r) (eph r) (cmdq r) (evq r) (pool r) v (sc r) (file r) (has_cb r).

(* assignment to the field at osdp_common.h:427 *)
Definition set_sc (v : schan) (r : pd) : pd :=
  mkPd (idx r) (fl r) (baud r) (address r) (seqn r) (pid r) (caps r) (state r) (phy_state r) (retry r) (wait_ms r) (tstamp r) (sc_tstamp r) (phy_tstamp r) (rq_restart r) (rq_event r) (rq_offline r) (peer_rx r) (rb r) (pbuf r) (plen r) (pblen r) (cmd_id r) (reply_id r) (eph r) (cmdq r) (evq r) (pool r) (chan_id r) v (file r) (has_cb r).

(* assignment to the field at osdp_common.h:428 *)
Definition set_file (v : option filest) (r : pd) : pd :=
  mkPd (idx r) (fl r) (baud r) (address r) (seqn r) (pid r) (caps r) (state r) (phy_state r) (retry r) (wait_ms r) (tstamp r) (sc_tstamp r) (phy_tstamp r) (rq_restart r) (rq_event r) (rq_offline r) (peer_rx r) (rb r) (pbuf r) (plen r) (pblen r) (cmd_id r) (reply_id r) (eph r) (cmdq r) (evq r) (pool r) (chan_id r) (sc r) v (has_cb r).

(* assignment to the field at osdp_common.h:432 command_callback is set *)
Definition set_has_cb (v : bool) (r : pd) : pd :=
  mkPd (idx r) (fl r) (baud r) (address r) (seqn r) (pid r) (caps r) (state r) (phy_state r) (retry r) (wait_ms r) (tstamp r) (sc_tstamp r) (phy_tstamp r) (rq_restart r) (rq_event r) (rq_offline r) (peer_rx r) (rb r) (pbuf r) (plen r) (pblen r) (cmd_id r) (reply_id r) (eph r) (cmdq r) (evq r) (pool r) (chan_id r) (sc r) (file r) v.

(* SET_FLAG / CLEAR_FLAG on osdp_common.h:263 PD_FLAG_SC_CAPABLE *)
Definition set_sc_capable (v : bool) (p : pd) : pd := set_fl (fset_sc_capable v (fl p)) p.

(* SET_FLAG / CLEAR_FLAG on osdp_common.h:267 PD_FLAG_SKIP_SEQ_CHECK *)
Definition set_skip_seq (v : bool) (p : pd) : pd := set_fl (fset_skip_seq v (fl p)) p.

(* SET_FLAG / CLEAR_FLAG on osdp_common.h:268 PD_FLAG_SC_USE_SCBKD *)
Definition set_use_scbkd (v : bool) (p : pd) : pd := set_fl (fset_use_scbkd v (fl p)) p.

(* SET_FLAG / CLEAR_FLAG on osdp_common.h:269 PD_FLAG_SC_ACTIVE *)
Definition set_sc_active (v : bool) (p : pd) : pd := set_fl (fset_sc_active v (fl p)) p.

(* SET_FLAG / CLEAR_FLAG on osdp_common.h:270 PD_FLAG_PD_MODE *)
Definition set_pd_mode (v : bool) (p : pd) : pd := set_fl (fset_pd_mode v (fl p)) p.

(* SET_FLAG / CLEAR_FLAG on osdp_common.h:271 PD_FLAG_CHN_SHARED *)
Definition set_chn_shared (v : bool) (p : pd) : pd := set_fl (fset_chn_shared v (fl p)) p.

(* SET_FLAG / CLEAR_FLAG on osdp_common.h:273 PD_FLAG_PKT_HAS_MARK *)
Definition set_has_mark (v : bool) (p : pd) : pd := set_fl (fset_has_mark v (fl p)) p.

(* SET_FLAG / CLEAR_FLAG on osdp_common.h:274 PD_FLAG_HAS_SCBK *)
Definition set_has_scbk (v : bool) (p : pd) : pd := set_fl (fset_has_scbk v (fl p)) p.

(* SET_FLAG / CLEAR_FLAG on osdp_common.h:275 PD_FLAG_SC_DISABLED *)
Definition set_sc_disabled (v : bool) (p : pd) : pd := set_fl (fset_sc_disabled v (fl p)) p.

(* SET_FLAG / CLEAR_FLAG on osdp_common.h:276 PD_FLAG_PKT_BROADCAST *)
Definition set_broadcast (v : bool) (p : pd) : pd := set_fl (fset_broadcast v (fl p)) p.

(* SET_FLAG / CLEAR_FLAG on osdp.h OSDP_FLAG_ENFORCE_SECURE *)
Definition set_enforce (v : bool) (p : pd) : pd := set_fl (fset_enforce v (fl p)) p.

(* SET_FLAG / CLEAR_FLAG on osdp.h OSDP_FLAG_INSTALL_MODE *)
Definition set_install (v : bool) (p : pd) : pd := set_fl (fset_install v (fl p)) p.

(* SET_FLAG / CLEAR_FLAG on osdp.h OSDP_FLAG_IGN_UNSOLICITED *)
Definition set_ign_unsol (v : bool) (p : pd) : pd := set_fl (fset_ign_unsol v (fl p)) p.

(* SET_FLAG / CLEAR_FLAG on osdp.h OSDP_FLAG_ENABLE_NOTIFICATION *)
Definition set_notif (v : bool) (p : pd) : pd := set_fl (fset_notif v (fl p)) p.

(* SET_FLAG / CLEAR_FLAG on osdp.h OSDP_FLAG_ALLOW_EMPTY_ENCRYPTED_DATA_BLOCK *)
Definition set_allow_empty (v : bool) (p : pd) : pd := set_fl (fset_allow_empty v (fl p)) p.

(* assignment to pd->sc.scbk, osdp_common.h:354 *)
Definition set_scbk (v : list Z) (p : pd) : pd := set_sc (cset_scbk v (sc p)) p.

(* assignment to pd->sc.s_enc, osdp_common.h:355 *)
Definition set_s_enc (v : list Z) (p : pd) : pd := set_sc (cset_s_enc v (sc p)) p.

(* assignment to pd->sc.s_mac1, osdp_common.h:356 *)
Definition set_s_mac1 (v : list Z) (p : pd) : pd := set_sc (cset_s_mac1 v (sc p)) p.

(* assignment to pd->sc.s_mac2, osdp_common.h:357 *)
Definition set_s_mac2 (v : list Z) (p : pd) : pd := set_sc (cset_s_mac2 v (sc p)) p.

(* assignment to pd->sc.r_mac, osdp_common.h:358 *)
Definition set_r_mac (v : list Z) (p : pd) : pd := set_sc (cset_r_mac v (sc p)) p.

(* assignment to pd->sc.c_mac, osdp_common.h:359 *)
Definition set_c_mac (v : list Z) (p : pd) : pd := set_sc (cset_c_mac v (sc p)) p.

(* assignment to pd->sc.cp_random, osdp_common.h:360 *)
Definition set_cp_random (v : list Z) (p : pd) : pd := set_sc (cset_cp_random v (sc p)) p.

(* assignment to pd->sc.pd_random, osdp_common.h:361 *)
Definition set_pd_random (v : list Z) (p : pd) : pd := set_sc (cset_pd_random v (sc p)) p.

(* assignment to pd->sc.client_uid, osdp_common.h:362 *)
Definition set_client_uid (v : list Z) (p : pd) : pd := set_sc (cset_client_uid v (sc p)) p.

(* assignment to pd->sc.cp_crypt, osdp_common.h:363 *)
Definition set_cp_crypt (v : list Z) (p : pd) : pd := set_sc (cset_cp_crypt v (sc p)) p.

(* assignment to pd->sc.pd_crypt, osdp_common.h:364 *)
Definition set_pd_crypt (v : list Z) (p : pd) : pd := set_sc (cset_pd_crypt v (sc p)) p.

(** What the outside world can see of one step. *)
(* channel.send, command_callback, event_callback and file operations; the values are the
   arguments of the call. *)
Inductive out :=
| OTx (data : list Z)                       (* bytes accepted by channel.send, osdp_phy.c:41 *)
| OCmd (c : cmd)                            (* command_callback, osdp_pd.c:201, osdp_file.c:231 *)
| OEv (pd_idx : Z) (e : event)              (* event_callback, osdp_cp.c:687, 961, 978, 1260 *)
| OEvRaw (pd_idx : Z) (e : ephem)           (* event_callback on a buffer that holds no event, osdp_cp.c:687 *)
| OFOpen (file_id size : Z)                 (* ops.open *)
| OFRead (n off : Z)                        (* ops.read *)
| OFWrite (data : list Z) (off : Z)         (* ops.write *)
| OFClose.                                  (* ops.close *)

(** Environment of one refresh call: everything the code reads from outside.  The clock is read
    once per refresh (simplification: osdp_millis_now does not advance within one call). *)
Record env := mkEnv {
  e_now : Z;                                (* osdp_millis_now *)
  e_rx : list (list Z);                     (* results of successive channel.recv calls *)
  e_tx : Z;                                 (* total number of bytes channel.send accepts *)
  e_rand : list Z;                          (* bytes produced by osdp_fill_random *)
  e_cb : nat -> cmd -> Z * cmd;             (* n-th command_callback of this call: return value and
                                               the command structure as the callback leaves it *)
  e_evcb : bool;                            (* ctx->event_callback is set *)
  e_fopen : Z -> Z -> Z * Z;                (* ops.open id size: return value, size written back *)
  e_fread : Z -> Z -> option (list Z);      (* ops.read n off: bytes read, None = negative *)
  e_fwrite : list Z -> Z -> Z;              (* ops.write *)
  e_fclose : Z                              (* ops.close *)
}.
