(** A packet on its way from one side to the other, possibly in pieces. *)
From Verif Require Import Base Rb RbProofs Types Phy Pd Cp SpecRx SpecFrame SpecPd.

(* osdp_phy_check_packet is called once with each of the environments and finds no complete packet
   (osdp_phy.c:499-540, return values OSDP_ERR_PKT_WAIT and OSDP_ERR_PKT_NO_DATA) *)
Inductive waited : pd -> list env -> pd -> Prop :=
| wt_nil p : waited p [] p
| wt_cons p e q k es r : check_packet e p = Ok (q, k) -> k = KWait \/ k = KNoData -> waited q es r -> waited p (e :: es) r.

(* the bytes that come in, one call after the other *)
Definition stream (es : list env) : list Z := concat (map (fun e => heard (e_rx e)) es).

(* what comes in during one call fits the ring buffer (511 bytes) *)
Definition fits_ring (e : env) : Prop := (length (heard (e_rx e)) < RB_SIZE)%nat.
Definition chunk_ok (e : env) : Prop := Forall bytes (e_rx e) /\ fits_ring e.

(* q is p but for the receive buffers, the mark flag and the time of the last byte *)
Definition buffers_only (p q : pd) : Prop :=
  exists m r t a b c, q = set_has_mark m (set_rb r (set_tstamp t (set_pblen a (set_plen b (set_pbuf c p))))).

(* results equal but for that *)
Definition same_result {A} (x y : res (pd * A)) : Prop :=
  match x, y with
  | Ok (a, u), Ok (b, v) => buffers_only a b /\ u = v
  | UB u, UB v => u = v
  | Die u, Die v => u = v
  | _, _ => False
  end.

(* refreshes of a device without any visible effect *)
Inductive idled : pd -> list env -> pd -> Prop :=
| id_nil p : idled p [] p
| id_cons p e q es r : pd_refresh e p = Ok (q, []) -> buffers_only p q -> idled q es r -> idled p (e :: es) r.

(* a refresh within 200 ms (OSDP_RESP_TOUT_MS) of t0 and, in a session, within 8 s
   (OSDP_PD_SC_TIMEOUT_MS) of the last command *)
Definition prompt (t0 : Z) (p : pd) (e : env) : Prop :=
  t0 <= e_now e < t0 + 200 /\ (sc_active (fl p) = true -> e_now e - sc_tstamp p <= 8000).

(* refreshes of a panel that go on waiting for the reply *)
Inductive waiting : pd -> list env -> pd -> Prop :=
| wg_nil p : waiting p [] p
| wg_cons p e q es r : state_update e p = Ok (q, CInprog, []) -> buffers_only p q -> waiting q es r -> waiting p (e :: es) r.

(* the bytes on the line are noise without start byte, at most one mark, the frame, and more *)
Definition delivers (s f rest : list Z) : Prop :=
  exists noise mk, s = noise ++ mk ++ f ++ rest /\ ~ In 83 noise /\ (mk = [] \/ mk = [255]).

(* a payload is framed and transmitted: osdp_phy_packet_init, the payload behind the header, and
   osdp_phy_send_packet, as cp_build_and_send_packet (osdp_cp.c:692-717) and pd_send_reply
   (osdp_pd.c:935-960) do; inside a session the last header byte is the block type, which the
   builders fill in *)
Definition transmit (e : env) (p : pd) (n ty : Z) (d : list Z) : res (pd * bool * list out) :=
  match packet_init p n with
  | (p1, None) => Ok (p1, false, [])
  | (p1, Some h) => send_packet e p1 ((if sc_active (fl p1) then removelast h ++ [ty] else h) ++ d) n
  end.

(* the receiver waits while the bytes of es come in, and with those of e it gets the payload d
   (osdp_phy_check_packet, osdp_phy_decode_packet) *)
Definition takes (p : pd) (es : list env) (e : env) (d : list Z) (q : pd) : Prop :=
  exists p1 p2, waited p es p1 /\ check_packet e p1 = Ok (p2, KNone) /\ decode_packet p2 = Ok (q, DData d).

(* address and number on the frames of p *)
Definition tx_addr (p : pd) : Z :=
  if pd_mode (fl p) then (if broadcast (fl p) then 127 else address p mod 128) + 128 else address p mod 128.
Definition tx_num (p : pd) : Z := if pd_mode (fl p) then seqn p mod 4 else seq_next (seqn p).

(* --- both ends of a line --- *)

(* nothing received and not yet used; the buffers are what C declares them to be *)
Definition quiet (p : pd) : Prop :=
  pblen p = 0 /\ plen p = 0 /\ rb_contents (rb p) = [] /\ rb_wf (rb p) /\ length (pbuf p) = 256%nat /\ bytes (pbuf p).

(* c (at the panel) and p (at the device) are the ends of a line *)
Record ends (c p : pd) : Prop := {
  nd_c : pd_mode (fl c) = false;
  nd_p : pd_mode (fl p) = true;
  nd_skip : skip_seq (fl c) = false /\ skip_seq (fl p) = false;
  nd_addr : address p = address c /\ 0 <= address c < 127;
  nd_bc : broadcast (fl p) = false
}.

(* ... with the same session: keys, chaining value for the next command and the sequence number agree *)
Record in_step (c p : pd) : Prop := {
  is_ends : ends c p;
  is_act : sc_active (fl c) = true /\ sc_active (fl p) = true;
  is_cap : sc_capable (fl p) = true /\ sc_disabled (fl p) = false;
  is_seq : seqn p = seqn c /\ 0 <= seqn c <= 3;
  is_keys : s_enc (sc p) = s_enc (sc c) /\ s_mac1 (sc p) = s_mac1 (sc c) /\ s_mac2 (sc p) = s_mac2 (sc c);
  is_chain : r_mac (sc p) = r_mac (sc c);
  is_bytes : Forall (fun k => length k = 16%nat /\ bytes k)
               [s_enc (sc c); s_mac1 (sc c); s_mac2 (sc c); r_mac (sc c); c_mac (sc c); c_mac (sc p)]
}.

(* ... and the chaining value for the reply: that of the command agrees as well *)
Definition in_step_reply (c p : pd) : Prop := in_step c p /\ c_mac (sc p) = c_mac (sc c).

(* the rest of the library may change anything but this between two packets *)
Definition keeps_link (p q : pd) : Prop :=
  fl q = fl p /\ sc q = sc p /\ seqn q = seqn p /\ address q = address p /\ rb q = rb p /\ pbuf q = pbuf p /\
  pblen q = pblen p /\ plen q = plen p.

(* a payload of a session: block type (21, 22 in clear, 23, 24 encrypted), code and data *)
Definition payload_ok (n ty code : Z) (data : list Z) : Prop :=
  21 <= ty <= 24 /\ byte code /\ bytes data /\ 69 <= n <= 256 /\
  15 + (if (ty =? 23) || (ty =? 24) then 16 * ((zlen data + 16) / 16) else zlen data) <= n.

(* one command and its reply over a line that loses nothing; n1, n2 are the sizes of the transmit
   buffers, and the line takes that many bytes at a time *)
Inductive exchanged (c p c' p' : pd) : Prop :=
| xc n1 ty1 code1 data1 c1 w1 e1 es1 h1 p1 p2 n2 ty2 code2 data2 p3 w2 e2 es2 h2 c2 c3 :
    payload_ok n1 ty1 code1 data1 -> n1 <= e_tx e1 -> transmit e1 c n1 ty1 (code1 :: data1) = Ok (c1, true, [OTx w1]) ->
    delivers (stream (es1 ++ [h1])) w1 [] -> Forall chunk_ok (es1 ++ [h1]) -> heard (e_rx h1) <> [] ->
    takes p es1 h1 (code1 :: data1) p1 -> keeps_link p1 p2 ->
    payload_ok n2 ty2 code2 data2 -> n2 <= e_tx e2 -> transmit e2 p2 n2 ty2 (code2 :: data2) = Ok (p3, true, [OTx w2]) ->
    delivers (stream (es2 ++ [h2])) w2 [] -> Forall chunk_ok (es2 ++ [h2]) -> heard (e_rx h2) <> [] ->
    takes c1 es2 h2 (code2 :: data2) c2 -> keeps_link c2 c3 ->
    c' = state_reset false c3 -> p' = state_reset false p3 ->
    exchanged c p c' p'.

Inductive exchanges : pd -> pd -> pd -> pd -> Prop :=
| xs_nil c p : exchanges c p c p
| xs_snoc c p c1 p1 c2 p2 : exchanges c p c1 p1 -> exchanged c1 p1 c2 p2 -> exchanges c p c2 p2.
