(** Property theorems C09, C13 - C17, C28, C30 - C32, C43, C44, C49 - C51: sessions, keys, events and
    calls of a peripheral device over whole runs. *)
From Verif Require Import Base ListLemmas Crc SpecCrc Aes Rb RbProofs Types Sc Phy File Pd SpecRx SpecFrame
  SpecSec SpecCmd SpecApp SpecPd RxProofs PdRx PdCore PhyTx PdTx PdReply PdStep PdWire PdFwd PdRun PdSpeak PdPlain PdSec PdRefuse PdFacts
  PdKinds PdCase PdApp PdTrace PdHist PdHist2 PdAnswer PdMore ExPd.
From Coq Require Import ZifyBool ZifyNat.
Local Opaque RB_SIZE.

Ltac ex_reach := apply run_reach;
  [apply ex_info_typed; first [exact I|exact ex_key_ok]
  |repeat apply Forall_cons; try apply Forall_nil; try exact I; apply ex_env_typed; vm_compute; reflexivity
  |vm_compute; reflexivity].
Ltac ex_typed := first [apply ex_env_typed; vm_compute; reflexivity|apply ex_env_no_typed; vm_compute; reflexivity].
Lemma ok_eq (r : res (pd * list out)) : is_ok r = true -> r = Ok (state_of r, outs_of r).
Proof. destruct r as [[q o]| |]; simpl; auto; discriminate. Qed.
Ltac ex_run := apply ok_eq; vm_compute; reflexivity.
Ltac ex_calls := repeat apply Forall_cons; try apply Forall_nil; try exact I; ex_typed.
Ltac ex_frame := apply (next_frame_test _ _ []); [auto|vm_compute; reflexivity|vm_compute; reflexivity].

(* command packet of a session without encryption (block type 21), with its MAC *)
Definition mac_frame (s : schan) (addr seq : Z) (pay : list Z) : list Z :=
  let h := header addr (zlen pay + 13) (12 + seq) ++ [2; 21] ++ pay in
  with_crc (h ++ firstn 4 (osdp_mac (s_mac1 s) (s_mac2 s) (r_mac s) h)).
(* nine bytes that announce a security block of eight bytes *)
Definition short_block (addr seq : Z) : list Z := with_crc (header addr 9 (12 + seq) ++ [8; 17]).
Definition ex_new_key : list Z := map Z.of_nat (seq 1 16).

(** C09.  If a session is open after a refresh, then it was open before or the sixteen bytes of a
    SCRYPT that came in clear outside a session, in this or an earlier refresh, are the AES encryption
    of both random numbers under the session key. *)
Theorem C09_cryptogram : forall i n h p e q o,
  pd_runs i n h p -> call_typed (Refresh e) -> pd_refresh e p = Ok (q, o) ->
  sc_active (fl q) = true -> session_open e p = false ->
  exists en x, In en (mkEntry p (Refresh e) o :: h) /\ scrypt_in en x /\
    x = enc1 (s_enc (sc q)) (firstn 8 (pd_random (sc q)) ++ firstn 8 (cp_random (sc q))).
Proof.
  intros i n h p e q o R T H A S. destruct (scr_step e i n h p q o R T H (scr_runs i n h p R)) as (_ & X).
  destruct (X A) as [Y|(C & en & IN & SI)]; [congruence|]. exists en, (cp_crypt (sc q)). auto.
Qed.
Print Assumptions C09_cryptogram.

Example C09_example :
  let p := state_of (run ex_pd_enf [Refresh (ex_env 1000 [ex_chlng])]) in
  let q := state_of (pd_refresh (ex_env 1100 [ex_scrypt]) p) in
  session_open (ex_env 1100 [ex_scrypt]) p = false /\ sc_active (fl q) = true /\
  (* one bit of the cryptogram wrong: no session *)
  let bad := scb_frame 101 1 19 [1] (119 :: upd 0 (Z.lxor 1 (nth 9 ex_scrypt 0)) (sub ex_scrypt 9 16)) in
  sc_active (fl (state_of (pd_refresh (ex_env 1100 [bad]) p))) = false.
Proof. vm_compute. auto. Qed.

(** C09 with "in this refresh" is false: the short packet, which holds no cryptogram at all, opens
    the session again that the packet itself (number 0) just closed.  Nothing in it is secret. *)
Theorem C09_same_refresh_refuted : exists p e q o,
  pd_reach p /\ call_typed (Refresh e) /\ e_rx e = [short_block 101 0] /\ pd_refresh e p = Ok (q, o) /\
  sc_active (fl q) = true /\ length o = 1%nat /\ r_mac (sc q) = r_mac (sc p).
Proof.
  exists ex_pd_sc, (ex_env 1200 [short_block 101 0]). do 2 eexists.
  split; [exact (proj1 ex_pd_sc_reach)|]. split; [ex_typed|]. split; [reflexivity|]. split; [ex_run|].
  vm_compute. auto.
Qed.
Print Assumptions C09_same_refresh_refuted.

(** C13 (part that holds).  Whenever the application (commands or file operations) is called while a session is open,
    the packet that was received in this refresh has number 0, or a security block of the handshake
    types 17..20, or a session type with the MAC over the packet under the session's keys and chain. *)
Theorem C13_authentic_partial : forall e p q o x,
  pd_reach p -> call_typed (Refresh e) -> pd_refresh e p = Ok (q, o) -> session_open e p = true ->
  In x o -> ~ quiet_out x ->
  exists f rest, heard_frame e p f rest /\
    (f_seq f = 0 \/
     (f_scb f = true /\
      (17 <= f_sctype f <= 20 \/
       (21 <= f_sctype f <= 24 /\
        f_mac f = firstn 4 (osdp_mac (s_mac1 (sc p)) (s_mac2 (sc p)) (r_mac (sc p)) (f_covered f)))))).
Proof.
  intros e p q o x R T H S N Q. exact (call_authentic e p q o x (env_typed e T) (reach_inv p R) H S Q N).
Qed.
Print Assumptions C13_authentic_partial.

Example C13_example :
  let f := mac_frame (sc ex_pd_sc) 101 2 [104; 0; 1; 0; 0] in
  let e := ex_env 1200 [f] in
  session_open e ex_pd_sc = true /\ next_frame e ex_pd_sc f [] /\
  length (outs_of (pd_refresh e ex_pd_sc)) = 2%nat /\ nth 0 (outs_of (pd_refresh e ex_pd_sc)) OFClose = OCmd (COutput 0 1 0).
Proof. cbv zeta. split; [reflexivity|]. split; [ex_frame|]. vm_compute. auto. Qed.

(** C13 is false: inside a session of an ENFORCE_SECURE device a KEYSET in a block of handshake type 17, which
    carries no MAC, is executed and replaces the base key. *)
Theorem C13_unauthenticated_refuted : exists p e f q o,
  pd_reach p /\ call_typed (Refresh e) /\ enforce (fl p) = true /\ session_open e p = true /\
  f = scb_frame 101 2 17 [1] (117 :: 1 :: 16 :: ex_new_key) /\ e_rx e = [f] /\
  pd_refresh e p = Ok (q, o) /\ In (OCmd (CKeyset 1 16 ex_new_key)) o /\
  scbk (sc p) = ex_key /\ scbk (sc q) = ex_new_key.
Proof.
  exists ex_pd_sc, (ex_env 1200 [scb_frame 101 2 17 [1] (117 :: 1 :: 16 :: ex_new_key)]). do 3 eexists.
  split; [exact (proj1 ex_pd_sc_reach)|]. split; [ex_typed|]. split; [reflexivity|]. split; [reflexivity|].
  split; [reflexivity|]. split; [reflexivity|]. split; [ex_run|]. vm_compute. auto.
Qed.
Print Assumptions C13_unauthenticated_refuted.

(** C14.  While no session is open, a refresh of an ENFORCE_SECURE device calls neither the command callback nor the
    file operations open, read and write, leaves address, baud rate, event queue and
    capabilities alone, and the base key too unless the application accepted that key in a session
    before (see C15); it prepares no other answer than NAK, ID, CAP, CCRYPT and RMAC_I. *)
Theorem C14_enforced : forall i n h p e q o,
  pd_runs i n h p -> call_typed (Refresh e) -> pd_refresh e p = Ok (q, o) ->
  enforce (fl p) = true -> session_open e p = false ->
  (forall c, ~ In (OCmd c) o) /\ (forall a b, ~ In (OFOpen a b) o) /\ (forall a b, ~ In (OFRead a b) o) /\
  (forall a b, ~ In (OFWrite a b) o) /\
  address q = address p /\ baud q = baud p /\ evq q = evq p /\ caps q = caps p /\
  (scbk (sc q) = scbk (sc p) \/ exists en, In en h /\ key_offer en (scbk (sc q))) /\
  (reply_id q = reply_id p \/ In (reply_id q) [65; 69; 70; 118; 120]).
Proof.
  intros i n h p e q o R T H E S. pose proof (run_step e i n h p q o R T H) as K.
  destruct (quiet_step e p q o K E S) as (Q & (Q1 & Q2 & _) & _ & Q3).
  assert (G : forall x, In x o -> (exists d, x = OTx d) \/ x = OFClose).
  { intros x Hx. rewrite Forall_forall in Q. exact (Q x Hx). }
  split; [intros c X; destruct (G _ X) as [(d & Y)|Y]; discriminate|].
  split; [intros a b X; destruct (G _ X) as [(d & Y)|Y]; discriminate|].
  split; [intros a b X; destruct (G _ X) as [(d & Y)|Y]; discriminate|].
  split; [intros a b X; destruct (G _ X) as [(d & Y)|Y]; discriminate|].
  destruct (com_step e p q o (com_runs i n h p R) K) as (_ & [(C1 & C2)|(C & _)]); [|rewrite S, E in C; discriminate].
  split; auto. split; auto. split; auto. split; auto. split; auto.
  destruct (key_step e i n h p q o R T H (key_runs i n h p R)) as (_ & [(C & _)|(_ & _ & _ & en & [X|X] & KO)]); auto.
  - subst en. destruct KO as (e0 & d & kt & kn & kd & _ & _ & _ & _ & X & _). simpl in X.
    destruct (G _ X) as [(d0 & Y)|Y]; discriminate.
  - right. exists en. auto.
Qed.
Print Assumptions C14_enforced.

Example C14_example :
  let e := ex_env 1000 [plain_frame 101 0 (110 :: [5; 128; 37; 0; 0])] in
  enforce (fl ex_pd_enf) = true /\ session_open e ex_pd_enf = false /\
  outs_of (pd_refresh e ex_pd_enf) = [OTx (plain_frame 229 0 [65; 6])] /\
  (* the same command reaches the application of a device without the flag *)
  outs_of (pd_refresh e ex_pd) = [OCmd (CComset 5 9600); OTx (plain_frame 229 0 [84; 5; 128; 37; 0; 0])].
Proof. vm_compute. auto. Qed.

(** C14 is false as regards "it only answers ID, CAP, CHLNG and SCRYPT": after the session has
    expired, the short packet makes an ENFORCE_SECURE device send its last answer again, a card number that
    went out encrypted before, now in clear. *)
Theorem C14_stale_answer_refuted : exists p card poll q o1 x,
  pd_reach p /\ enforce (fl p) = true /\ card = ECard 0 1 0 16 [171; 205] /\
  run p [Notify card; Refresh (ex_env 1200 [poll]); Refresh (ex_env 100000 [short_block 101 0])]
    = Ok (q, [OTx o1; x]) /\ nth 6 o1 0 = 24 /\
  x = OTx (plain_frame 229 0 [80; 0; 1; 16; 0; 171; 205]).
Proof.
  exists ex_pd_sc, (ECard 0 1 0 16 [171; 205]), (mac_frame (sc ex_pd_sc) 101 2 [96]). do 3 eexists.
  split; [exact (proj1 ex_pd_sc_reach)|]. split; [reflexivity|]. split; [reflexivity|].
  split; [vm_compute; reflexivity|]. vm_compute. auto.
Qed.
Print Assumptions C14_stale_answer_refuted.

(** C15.  The base key changes only to a key that the application accepted, as KEYSET of type 1 with sixteen
    bytes, in a refresh that found a session open; then the session is closed and install mode
    is over. *)
Theorem C15_keys : forall i n h p e q o,
  pd_runs i n h p -> call_typed (Refresh e) -> pd_refresh e p = Ok (q, o) ->
  scbk (sc q) = scbk (sc p) \/
  (sc_active (fl q) = false /\ install (fl q) = false /\
   exists en e0 d kt kn kd, In en (mkEntry p (Refresh e) o :: h) /\ en_call en = Refresh e0 /\
     session_open e0 (en_pd en) = true /\ bytes d /\ zlen d = 16 /\ In (OCmd (CKeyset 1 16 d)) (en_out en) /\
     e_cb e0 0 (CKeyset 1 16 d) = (0, CKeyset kt kn kd) /\ scbk (sc q) = firstn 16 kd).
Proof.
  intros i n h p e q o R T H.
  destruct (key_step e i n h p q o R T H (key_runs i n h p R)) as (_ & [(C & _)|(A & B & _ & en & X & KO)]); auto.
  right. split; auto. split; auto. destruct KO as (e0 & d & kt & kn & kd & K1 & K2 & K3 & K4 & K5 & K6 & K7 & _).
  exists en, e0, d, kt, kn, kd. auto 10.
Qed.
Print Assumptions C15_keys.

(** C15.  The other calls of the interface never change it. *)
Theorem C15_other_calls : forall c p q o, pd_do c p = Ok (q, o) ->
  (exists e, c = Refresh e) \/ (scbk (sc q) = scbk (sc p) /\ install (fl q) = install (fl p) /\ o = []).
Proof.
  intros c p q o H. destruct (other_call c p q o H) as [X|[X Y]]; auto. right.
  destruct (other_fields p q X) as ((_ & _ & A & B & _) & _). rewrite A, B. auto.
Qed.
Print Assumptions C15_other_calls.

Example C15_example :
  let e := ex_env 1200 [mac_frame (sc ex_pd_sc) 101 2 (117 :: 1 :: 16 :: ex_new_key)] in
  scbk (sc ex_pd_sc) = ex_key /\ scbk (sc (state_of (pd_refresh e ex_pd_sc))) = ex_new_key /\
  sc_active (fl (state_of (pd_refresh e ex_pd_sc))) = false /\
  nth 0 (outs_of (pd_refresh e ex_pd_sc)) OFClose = OCmd (CKeyset 1 16 ex_new_key).
Proof. vm_compute. auto. Qed.

(** C15 is false as regards "the new key must be proven": after the key was changed, the old
    SCRYPT packet, sent again unchanged, opens a session with the keys derived from the old base key. *)
Theorem C15_old_key_session_refuted : exists p cs q o,
  pd_reach p /\ Forall call_typed cs /\ run p cs = Ok (q, o) /\
  cs = [Refresh (ex_env 1200 [mac_frame (sc p) 101 2 (117 :: 1 :: 16 :: ex_new_key)]);
        Refresh (ex_env 1300 [plain_frame 101 0 [97; 0]]); Refresh (ex_env 1400 [ex_scrypt])] /\
  scbk (sc q) = ex_new_key /\ sc_active (fl q) = true /\
  s_enc (sc q) = enc1 ex_key (session_block 1 130 ex_cp_rnd).
Proof.
  exists ex_pd_sc. do 3 eexists. split; [exact (proj1 ex_pd_sc_reach)|].
  split; [|split; [|split; [reflexivity|]]]; [ex_calls|ex_run|]. vm_compute. auto.
Qed.
Print Assumptions C15_old_key_session_refuted.

(** C16.  A device that is not in install mode stays out of it, and the session key it derives in a refresh
    comes from its own base key (also when the challenge asks for the default key). *)
Theorem C16_default_key : forall e p q o,
  pd_reach p -> call_typed (Refresh e) -> pd_refresh e p = Ok (q, o) -> install (fl p) = false ->
  install (fl q) = false /\
  (s_enc (sc q) = s_enc (sc p) \/
   (exists rnd, s_enc (sc q) = enc1 (scbk (sc p)) (session_block 1 130 rnd) /\ cp_random (sc q) = rnd)).
Proof.
  intros e p q o R T H N. pose proof R as (i & n & h & RR).
  exact (dflt_step e p q o (reach_inv p R) (run_step e i n h p q o RR T H) N).
Qed.
Print Assumptions C16_default_key.

(** C16.  A change of the key ends install mode. *)
Theorem C16_keyset_ends : forall i n h p e q o,
  pd_runs i n h p -> call_typed (Refresh e) -> pd_refresh e p = Ok (q, o) ->
  scbk (sc q) <> scbk (sc p) -> install (fl q) = false.
Proof.
  intros i n h p e q o R T H N. destruct (C15_keys i n h p e q o R T H) as [X|(_ & X & _)]; auto. congruence.
Qed.
Print Assumptions C16_keyset_ends.

(* a challenge that asks for the default key, in install mode and not *)
Example C16_example :
  let f := scb_frame 101 0 17 [0] (118 :: ex_cp_rnd) in
  install (fl ex_pd_enf) = false /\ install (fl ex_pd) = true /\
  map (fun x => match x with OTx d => nth 8 d 0 | _ => 0 end) (outs_of (pd_refresh (ex_env 1000 [f]) ex_pd)) = [118] /\
  s_enc (sc (state_of (pd_refresh (ex_env 1000 [f]) ex_pd))) = enc1 scbk_default (session_block 1 130 ex_cp_rnd) /\
  s_enc (sc (state_of (pd_refresh (ex_env 1000 [f]) ex_pd_enf))) = enc1 ex_key (session_block 1 130 ex_cp_rnd).
Proof. vm_compute. auto 10. Qed.

(** C16 is false as regards the end of install mode: the SCRYPT packet of the install session, sent again after the
    KEYSET, opens a session whose keys come from the default key, although the device has its own
    key and is not in install mode any more. *)
Definition ex_d_scrypt : list Z :=
  Eval vm_compute in
  scb_frame 101 1 19 [0] (119 :: enc1 (enc1 scbk_default (session_block 1 130 ex_cp_rnd)) (ex_pd_rnd ++ ex_cp_rnd)).
Theorem C16_default_session_refuted : exists p cs q o,
  pd_reach p /\ Forall call_typed cs /\ run p cs = Ok (q, o) /\
  (exists cs0 keyset, cs = cs0 ++ [Refresh (ex_env 1200 [keyset]); Refresh (ex_env 1300 [plain_frame 101 0 [97; 0]]);
        Refresh (ex_env 1400 [ex_d_scrypt])]) /\
  install (fl q) = false /\ scbk (sc q) = ex_new_key /\ sc_active (fl q) = true /\
  s_enc (sc q) = enc1 scbk_default (session_block 1 130 ex_cp_rnd).
Proof.
  set (cs0 := [Refresh (ex_env 1000 [scb_frame 101 0 17 [0] (118 :: ex_cp_rnd)]); Refresh (ex_env 1100 [ex_d_scrypt])]).
  set (p1 := state_of (run ex_pd cs0)).
  exists ex_pd, (cs0 ++ [Refresh (ex_env 1200 [mac_frame (sc p1) 101 2 (117 :: 1 :: 16 :: ex_new_key)]);
        Refresh (ex_env 1300 [plain_frame 101 0 [97; 0]]); Refresh (ex_env 1400 [ex_d_scrypt])]). do 2 eexists.
  split; [exact ex_pd_reach|]. split; [ex_calls|]. split; [ex_run|]. split; [eauto|]. vm_compute. auto.
Qed.
Print Assumptions C16_default_session_refuted.

(** C17.  If a device works in a session at all during a refresh, then an intact packet for it
    arrived in some earlier refresh at most 8 s before. *)
Theorem C17_idle : forall i n h p e,
  pd_runs i n h p -> session_open e p = true ->
  exists en e0 f rest, In en h /\ en_call en = Refresh e0 /\ heard_frame e0 (en_pd en) f rest /\ e_now e - e_now e0 <= 8000.
Proof.
  intros i n h p e R S. unfold session_open in S. apply andb_true_iff in S as [S1 S2].
  destruct (stamp_runs i n h p R S1) as (en & e0 & f & rest & A & B & C & D).
  exists en, e0, f, rest. split; auto. split; auto. split; auto. lia.
Qed.
Print Assumptions C17_idle.

(** C17.  When the session is older, the refresh does exactly what it would do with the session closed. *)
Theorem C17_expired : forall e p,
  e_now e - sc_tstamp p > 8000 -> pd_refresh e p = pd_refresh e (sc_deactivate p).
Proof.
  intros e p H. unfold pd_refresh. f_equal.
  assert (X : sc_timeout e (sc_deactivate p) = sc_deactivate p) by (unfold sc_timeout; reflexivity).
  unfold sc_timeout at 1. destruct (sc_active (fl p)) eqn:A; simpl.
  - assert (Y : e_now e - sc_tstamp p >? PD_SC_TIMEOUT = true) by (unfold PD_SC_TIMEOUT; lia). rewrite Y, X. reflexivity.
  - rewrite X. f_equal. destruct p as [i0 fl0]; destruct fl0; simpl in A; subst; reflexivity.
Qed.
Print Assumptions C17_expired.

Example C17_example :
  let f := mac_frame (sc ex_pd_sc) 101 2 [104; 0; 1; 0; 0] in
  sc_tstamp ex_pd_sc = 1100 /\
  length (outs_of (pd_refresh (ex_env 9100 [f]) ex_pd_sc)) = 2%nat /\
  outs_of (pd_refresh (ex_env 9101 [f]) ex_pd_sc) = [OTx (plain_frame 229 2 [65; 6])].
Proof. vm_compute. auto. Qed.

(** C28.  At any time the events accepted since the last flush are those taken from the queue
    followed by those still waiting, in order. *)
Theorem C28_fifo : forall i n h p, pd_runs i n h p -> accepted h = taken h p ++ evq p.
Proof. exact fifo_runs. Qed.
Print Assumptions C28_fifo.

(** C28.  A refresh takes at most one event, the oldest, and only if it received a POLL. *)
Theorem C28_one_per_poll : forall e p q o,
  pd_reach p -> call_typed (Refresh e) -> pd_refresh e p = Ok (q, o) ->
  evq q = evq p \/
  (exists ev f rest p1 p2, evq p = ev :: evq q /\ heard_frame e p f rest /\ seq_ok (seqn p) (f_seq f) /\
     frame_of p1 = f /\ decode_packet (pd_seen f p1) = Ok (p2, DData [96])).
Proof.
  intros e p q o R T H. destruct R as (i & n & h & RR).
  destruct (evq_step e p q o (run_step e i n h p q o RR T H)) as [X|(ev & f & rest & p1 & p2 & p3 & p4 & o2 & A & B & C & D & E & _)]; auto.
  right. exists ev, f, rest, p1, p2. auto.
Qed.
Print Assumptions C28_one_per_poll.

(** C28.  A POLL in clear is answered with the report of the oldest event, or ACK if there is none. *)
Theorem C28_answer : forall e p f rest,
  pd_reach p -> call_typed (Refresh e) -> clear_cmd e p f rest 96 [] -> 256 <= e_tx e -> 69 <= tx_buf_size p ->
  enforce (fl p) = false ->
  (evq p = [] -> exchange e p f rest [] [64] (fun q => app_view q = app_view p)) /\
  (forall ev t pay, evq p = ev :: t -> event_payload (caps p) ev = Some pay -> event_fits ev -> zlen pay + 8 <= tx_buf_size p ->
     exchange e p f rest [] pay (fun q => evq q = t)).
Proof.
  intros e p f rest R T C H1 H2 EN. split.
  - intros E. exact (poll_idle e p f rest (env_typed e T) (reach_inv p R) C H1 H2 EN E).
  - intros ev t pay A B D F. exact (poll_event e p f rest ev t pay (env_typed e T) (reach_inv p R) C H1 H2 EN A B D F).
Qed.
Print Assumptions C28_answer.

(** C28.  notify is refused, and changes nothing, exactly when the pool is exhausted. *)
Theorem C28_notify : forall i n h p ev,
  pd_runs i n h p ->
  (snd (pd_notify_event ev p) = true <-> zlen (evq p) < n) /\
  (snd (pd_notify_event ev p) = false -> fst (pd_notify_event ev p) = p) /\
  (snd (pd_notify_event ev p) = true -> evq (fst (pd_notify_event ev p)) = evq p ++ [ev]).
Proof.
  intros i n h p ev R. rewrite <- (pool_runs i n h p R). unfold pd_notify_event.
  destruct (zlen (evq p) <? pool p) eqn:E; simpl; (split; [split; intros; (discriminate || lia || auto)|split; intros; (discriminate || auto)]).
Qed.
Print Assumptions C28_notify.

Example C28_example :
  let k := EKey 0 2 [49; 50] in let c := ECard 0 1 0 16 [171; 205] in
  let poll := fun t s => Refresh (ex_env t [plain_frame 101 s [96]]) in
  outs_of (run ex_pd [Notify k; Notify c; poll 1000 0; poll 1100 1; poll 1200 2]) =
    [OTx (plain_frame 229 0 [83; 0; 2; 49; 50]); OTx (plain_frame 229 1 [80; 0; 1; 16; 0; 171; 205]);
     OTx (plain_frame 229 2 [64])] /\
  (* the pool of ex_pd has four blocks *)
  length (evq (state_of (run ex_pd [Notify k; Notify k; Notify k; Notify c; Notify c]))) = 4%nat.
Proof. vm_compute. auto. Qed.

(** C30.  The application is called only with commands that the declared capabilities cover. *)
Theorem C30_covered : forall e p q o c,
  pd_reach p -> call_typed (Refresh e) -> pd_refresh e p = Ok (q, o) -> In (OCmd c) o -> cap_covers (caps p) c.
Proof.
  intros e p q o c R T H X. exact (proj2 (call_covered e p q o c (env_typed e T) (reach_inv p R) H X)).
Qed.
Print Assumptions C30_covered.

(* two outputs declared: output 1 is switched, output 2 not *)
Example C30_example :
  outs_of (pd_refresh (ex_env 1000 [plain_frame 101 0 [104; 1; 1; 0; 0]]) ex_pd) = [OCmd (COutput 1 1 0); OTx (plain_frame 229 0 [64])] /\
  outs_of (pd_refresh (ex_env 1000 [plain_frame 101 0 [104; 2; 1; 0; 0]]) ex_pd) = [OTx (plain_frame 229 0 [64])] /\
  cap_covers (caps ex_pd) (COutput 1 1 0) /\ ~ cap_covers (caps ex_pd) (COutput 2 1 0).
Proof.
  split; [vm_compute; reflexivity|]. split; [vm_compute; reflexivity|]. split.
  - vm_compute. split; [discriminate|reflexivity].
  - intros [_ X]. vm_compute in X. discriminate.
Qed.

(** C31 (part that holds).  TEXT, MFG and COMSET: the application is called once with the received fields, and the answer is
    NAK(9) exactly if it refuses. *)
Theorem C31_refused_partial : forall e p f rest c d,
  pd_reach p -> call_typed (Refresh e) -> clear_cmd e p f rest c d -> 256 <= e_tx e -> 69 <= tx_buf_size p ->
  enforce (fl p) = false -> has_cb p = true ->
  (c = 107 -> ~ length_wrong 107 d -> cap_level (caps p) 6 <> 0 -> cap_items (caps p) 6 <> 0 ->
     exchange e p f rest [text_of d] (if fst (e_cb e 0 (text_of d)) =? 0 then [64] else [65; 9]) (fun q => app_view q = app_view p)) /\
  (c = 128 -> ~ length_wrong 128 d ->
     exchange e p f rest [mfg_of d] (if fst (e_cb e 0 (mfg_of d)) =? 0 then [64] else [65; 9]) (fun q => app_view q = app_view p)) /\
  (c = 110 -> zlen d = 5 -> nth 0 d 0 < 127 -> In (le32 (nth 1 d 0) (nth 2 d 0) (nth 3 d 0) (nth 4 d 0)) legal_bauds ->
     fst (e_cb e 0 (comset_of d)) <> 0 ->
     exchange e p f rest [comset_of d] [65; 9] (fun q => app_view q = app_view p)).
Proof.
  intros e p f rest c d R T C H1 H2 EN CB. pose proof (env_typed e T) as K. pose proof (reach_inv p R) as I.
  split; [|split]; intros ->; intros.
  - exact (text_answer e p f rest d K I C H1 H2 EN CB H H0 H3).
  - exact (mfg_answer e p f rest d K I C H1 H2 EN CB H).
  - apply (comset_refused e p f rest d K I C H1 H2 EN CB); auto.
Qed.
Print Assumptions C31_refused_partial.

(** C31.  What OUT, LED and BUZ do instead: the records are passed to the application in order up to
    the first one that is not covered by a capability or is refused, and the answer is always ACK. *)
Theorem C31_records : forall e p f rest c d,
  pd_reach p -> call_typed (Refresh e) -> clear_cmd e p f rest c d -> 256 <= e_tx e -> 69 <= tx_buf_size p ->
  enforce (fl p) = false -> has_cb p = true ->
  (c = 104 -> zlen d mod 4 = 0 -> exchange e p f rest (record_calls (e_cb e) (caps p) 0 (out_records d)) [64] (fun q => app_view q = app_view p)) /\
  (c = 105 -> zlen d mod 14 = 0 -> exchange e p f rest (record_calls (e_cb e) (caps p) 0 (led_records d)) [64] (fun q => app_view q = app_view p)) /\
  (c = 106 -> zlen d mod 5 = 0 -> exchange e p f rest (record_calls (e_cb e) (caps p) 0 (buz_records d)) [64] (fun q => app_view q = app_view p)).
Proof.
  intros e p f rest c d R T C H1 H2 EN CB. pose proof (env_typed e T) as K. pose proof (reach_inv p R) as I.
  split; [|split]; intros -> M.
  - apply (multi_answer e p f rest 104 4 dec_out d (out_records d) K I C H1 H2 EN CB); auto. { left; auto. } intros _. apply out_chunks; auto.
  - apply (multi_answer e p f rest 105 14 dec_led d (led_records d) K I C H1 H2 EN CB); auto. { right; left; auto. } intros _. apply led_chunks; auto.
  - apply (multi_answer e p f rest 106 5 dec_buz d (buz_records d) K I C H1 H2 EN CB); auto. { right; right; auto. } intros _. apply buz_chunks; auto.
Qed.
Print Assumptions C31_records.

Example C31_example :
  outs_of (pd_refresh (ex_env_no 1000 [plain_frame 101 0 (128 :: [1; 2; 3; 4; 5])]) ex_pd)
    = [OCmd (mfg_of [1; 2; 3; 4; 5]); OTx (plain_frame 229 0 [65; 9])] /\
  outs_of (pd_refresh (ex_env 1000 [plain_frame 101 0 ([104] ++ [0; 1; 0; 0] ++ [1; 2; 5; 0] ++ [2; 1; 0; 0] ++ [0; 1; 0; 0])]) ex_pd)
    = [OCmd (COutput 0 1 0); OCmd (COutput 1 2 5); OTx (plain_frame 229 0 [64])].
Proof. vm_compute. auto. Qed.

(** C31 is false for outputs: the application refuses, and the answer is still ACK. *)
Theorem C31_output_refuted : exists p e q,
  pd_reach p /\ call_typed (Refresh e) /\ e_rx e = [plain_frame 101 0 [104; 0; 1; 0; 0]] /\
  fst (e_cb e 0 (COutput 0 1 0)) = -1 /\
  pd_refresh e p = Ok (q, [OCmd (COutput 0 1 0); OTx (plain_frame 229 0 [64])]).
Proof.
  exists ex_pd, (ex_env_no 1000 [plain_frame 101 0 [104; 0; 1; 0; 0]]). eexists.
  split; [exact ex_pd_reach|]. split; [ex_typed|]. split; [reflexivity|]. split; [reflexivity|]. vm_compute; reflexivity.
Qed.
Print Assumptions C31_output_refuted.

(** C32.  Address and baud rate change only in a refresh in which the application accepted a COMSET with
    address below 127 and a legal baud rate (in a session, if the device enforces that), and then both at
    once, to the values the application returned. *)
Theorem C32_comset : forall e p q o,
  pd_reach p -> call_typed (Refresh e) -> pd_refresh e p = Ok (q, o) ->
  (address q = address p /\ baud q = baud p) \/
  ((session_open e p = true \/ enforce (fl p) = false) /\
   exists a b a2 b2, a < 127 /\ In b legal_bauds /\ In (OCmd (CComset a b)) o /\
     e_cb e 0 (CComset a b) = (0, CComset a2 b2) /\ address q = a2 /\ baud q = b2).
Proof.
  intros e p q o R T H. destruct R as (i & n & h & RR).
  destruct (com_step e p q o (com_runs i n h p RR) (run_step e i n h p q o RR T H)) as (_ & [X|(S & d & a & b & f & rest & C & B & A1 & A2 & _)]); auto.
  right. split. { destruct (session_open e p); auto. right. destruct (enforce (fl p)); auto; discriminate. }
  destruct C as (_ & L & L1 & L2 & CB & IN). unfold comset_of in *.
  do 4 eexists. split; [exact L1|]. split; [apply baud_legal; exact L2|]. split; [exact IN|]. split; [exact CB|]. auto.
Qed.
Print Assumptions C32_comset.

(** C32.  The answer goes out under the old address and carries the new settings. *)
Theorem C32_answer : forall e p f rest d a b,
  pd_reach p -> call_typed (Refresh e) -> clear_cmd e p f rest 110 d -> 256 <= e_tx e -> 69 <= tx_buf_size p ->
  enforce (fl p) = false -> has_cb p = true -> zlen d = 5 -> nth 0 d 0 < 127 ->
  In (le32 (nth 1 d 0) (nth 2 d 0) (nth 3 d 0) (nth 4 d 0)) legal_bauds ->
  e_cb e 0 (comset_of d) = (0, CComset a b) ->
  exists q x, pd_refresh e p = Ok (q, [OCmd (comset_of d); x]) /\ address q = a /\ baud q = b /\
    answer_of p f ([84] ++ le_bytes 1 a ++ le_bytes 4 b) x.
Proof.
  intros e p f rest d a b R T C H1 H2 EN CB L A B V.
  destruct (comset_answer e p f rest d a b (env_typed e T) (reach_inv p R) C H1 H2 EN CB L A B V) as (q & x & X & Y & (Z1 & Z2) & _).
  exists q, x. auto.
Qed.
Print Assumptions C32_answer.

Example C32_example :
  let e := ex_env 1000 [plain_frame 101 0 (110 :: [5; 0; 194; 1; 0])] in
  let q := state_of (pd_refresh e ex_pd) in
  address q = 5 /\ baud q = 115200 /\
  outs_of (pd_refresh e ex_pd) = [OCmd (CComset 5 115200); OTx (plain_frame 229 0 [84; 5; 0; 194; 1; 0])] /\
  (* 115201 baud *)
  outs_of (pd_refresh (ex_env 1000 [plain_frame 101 0 (110 :: [5; 1; 194; 1; 0])]) ex_pd) = [OTx (plain_frame 229 0 [65; 2])].
Proof. vm_compute. auto. Qed.

(** C43 is false: a file command whose fragment length does not fit the packet, or whose fragment is larger than the
    announced file, ends the process by an assertion. *)
Definition ex_ft_calls : list pd_call := [SetCallback true; RegisterFileOps].
Definition ex_ft_pd : pd := state_of (run_from (ex_info false None) 4 ex_ft_calls).
Theorem C43_assert_refuted : exists p e1 e2,
  pd_reach p /\ call_typed (Refresh e1) /\ call_typed (Refresh e2) /\
  e_rx e1 = [plain_frame 101 0 (124 :: [1; 4; 0; 0; 0; 0; 0; 0; 0; 9; 0; 1; 2; 3; 4])] /\
  e_rx e2 = [plain_frame 101 0 (124 :: [1; 2; 0; 0; 0; 0; 0; 0; 0; 4; 0; 1; 2; 3; 4])] /\
  pd_refresh e1 p = Die Assertion /\ pd_refresh e2 p = Die Assertion.
Proof.
  exists ex_ft_pd, (ex_env 1000 [plain_frame 101 0 (124 :: [1; 4; 0; 0; 0; 0; 0; 0; 0; 9; 0; 1; 2; 3; 4])]),
    (ex_env 1000 [plain_frame 101 0 (124 :: [1; 2; 0; 0; 0; 0; 0; 0; 0; 4; 0; 1; 2; 3; 4])]).
  split; [ex_reach|]. split; [ex_typed|]. split; [ex_typed|]. split; [reflexivity|]. split; [reflexivity|].
  split; vm_compute; reflexivity.
Qed.
Print Assumptions C43_assert_refuted.

(** C43 is false: a status request to a device without command callback calls a null pointer. *)
Theorem C43_null_refuted : exists p e,
  pd_reach p /\ call_typed (Refresh e) /\ e_rx e = [plain_frame 101 0 [100]] /\ pd_refresh e p = UB NullCall.
Proof.
  exists (state_of (run_from (ex_info false None) 4 [])), (ex_env 1000 [plain_frame 101 0 [100]]).
  split; [ex_reach|]. split; [ex_typed|]. split; [reflexivity|]. vm_compute; reflexivity.
Qed.
Print Assumptions C43_null_refuted.

(** C44 (part that holds).  Outside a session every plain command packet with at least one byte of payload, other than FILETRANSFER and
    ACURXSIZE, is answered in the same refresh by exactly one complete and intact packet with the same number. *)
Theorem C44_answered_partial : forall e p f rest c d q o,
  pd_reach p -> call_typed (Refresh e) -> clear_cmd e p f rest c d -> c <> 124 -> c <> 123 ->
  peer_rx p = 0 -> 256 <= e_tx e -> pd_refresh e p = Ok (q, o) ->
  exists ob mk w, o = ob ++ [OTx (mk ++ w)] /\ (forall x, ~ In (OTx x) ob) /\ (mk = [] \/ mk = [255]) /\ bytes w /\ f_shape true w /\
    f_crc w = true /\ crc_valid w /\ nth 1 w 0 = answer_addr p f /\ f_seq w = f_seq f.
Proof.
  intros e p f rest c d q o R T C N1 N2 PX TX H.
  destruct (plain_answered e p f rest c d q o (env_typed e T) (reach_inv p R) C N1 N2 PX TX H) as (ob & x & -> & NT & mk & w & -> & A).
  exists ob, mk, w. split; [reflexivity|]. split; [exact NT|]. exact A.
Qed.
Print Assumptions C44_answered_partial.

Example C44_example :
  let f := plain_frame 101 0 [107; 0; 1; 0; 0; 0; 40] in
  let e := ex_env 1000 [f] in
  clear_cmd e ex_pd f [] 107 [0; 1; 0; 0; 0; 40] /\ peer_rx ex_pd = 0 /\
  outs_of (pd_refresh e ex_pd) = [OTx (plain_frame 229 0 [65; 2])].
Proof.
  cbv zeta. split; [|vm_compute; auto]. split; [ex_frame|]. split; [apply intact_test; vm_compute; reflexivity|].
  split; [left; vm_compute; reflexivity|]. split; [left; vm_compute; reflexivity|]. split; [vm_compute; reflexivity|].
  split; [left; vm_compute; reflexivity|]. vm_compute; reflexivity.
Qed.

(** C44 is false: a packet without payload, a file fragment that the application does not want, and everything
    after an ACURXSIZE below 69 stay without answer. *)
Theorem C44_silent_refuted : exists p e1 e2 e3 q1 q2 q3,
  pd_reach p /\ call_typed (Refresh e1) /\ call_typed (Refresh e2) /\ call_typed (Refresh e3) /\
  e_rx e1 = [plain_frame 101 0 []] /\ pd_refresh e1 p = Ok (q1, []) /\
  e_rx e2 = [plain_frame 101 0 (124 :: [1; 4; 0; 0; 0; 0; 0; 0; 0; 4; 0; 1; 2; 3; 4])] /\
  pd_refresh e2 p = Ok (q2, [OCmd (CFileTx 1 0)]) /\
  e_rx e3 = [plain_frame 101 0 [123; 68; 0]] /\
  run p [Refresh e3; Refresh (ex_env 1100 [plain_frame 101 1 [96]]); Refresh (ex_env 2100 [plain_frame 101 2 [97; 0]])] = Ok (q3, []).
Proof.
  exists ex_ft_pd, (ex_env 1000 [plain_frame 101 0 []]),
    (ex_env_no 1000 [plain_frame 101 0 (124 :: [1; 4; 0; 0; 0; 0; 0; 0; 0; 4; 0; 1; 2; 3; 4])]),
    (ex_env 1000 [plain_frame 101 0 [123; 68; 0]]). do 3 eexists.
  split; [ex_reach|]. split; [ex_typed|]. split; [ex_typed|]. split; [ex_typed|]. split; [reflexivity|].
  split; [vm_compute; reflexivity|]. split; [reflexivity|]. split; [vm_compute; reflexivity|]. split; [reflexivity|].
  vm_compute; reflexivity.
Qed.
Print Assumptions C44_silent_refuted.

(** C49 is false: a device that enforces secure channel and holds a base key opens a session right after
    setup for a SCRYPT without challenge, whose cryptogram anybody can compute (zero key, zero random numbers). *)
Theorem C49_zero_key_refuted : exists p e q o,
  pd_reach p /\ call_typed (Refresh e) /\ enforce (fl p) = true /\ scbk (sc p) = ex_key /\ install (fl p) = false /\
  e_rx e = [scb_frame 101 0 19 [1] (119 :: enc1 (zeros 16) (zeros 16))] /\
  pd_refresh e p = Ok (q, o) /\ sc_active (fl q) = true /\
  (* and executes a command in it *)
  let f := mac_frame (mkSc (zeros 16) (zeros 16) (zeros 16) (zeros 16) (r_mac (sc q)) [] [] [] [] [] []) 101 1 [104; 0; 1; 0; 0] in
  In (OCmd (COutput 0 1 0)) (outs_of (pd_refresh (ex_env 1300 [f]) q)).
Proof.
  exists ex_pd_enf, (ex_env 1200 [scb_frame 101 0 19 [1] (119 :: enc1 (zeros 16) (zeros 16))]). do 2 eexists.
  split; [exact ex_pd_enf_reach|]. split; [ex_typed|]. do 3 (split; [reflexivity|]). split; [reflexivity|]. split; [ex_run|].
  vm_compute. auto.
Qed.
Print Assumptions C49_zero_key_refuted.

(** C50 is false: the packets of a session (SCRYPT, then an authenticated output command), recorded and sent again
    unchanged a minute later behind a plain ID request, switch the output again. *)
Theorem C50_replay_refuted : exists p cmd cs q o1 o2 o3,
  pd_reach p /\ enforce (fl p) = true /\ install (fl p) = false /\
  cs = [Refresh (ex_env 1000 [ex_chlng]); Refresh (ex_env 1100 [ex_scrypt]); Refresh (ex_env 1200 [cmd]);
        Refresh (ex_env 61000 [plain_frame 101 0 [97; 0]]); Refresh (ex_env 61100 [ex_scrypt]); Refresh (ex_env 61200 [cmd])] /\
  Forall call_typed cs /\ run p cs = Ok (q, o1 ++ [OCmd (COutput 0 1 0)] ++ o2 ++ [OCmd (COutput 0 1 0)] ++ o3) /\
  forallb (fun x => match x with OTx _ => true | _ => false end) (o1 ++ o2 ++ o3) = true.
Proof.
  exists ex_pd_enf, (mac_frame (sc ex_pd_sc) 101 2 [104; 0; 1; 0; 0]). eexists.
  set (r := run ex_pd_enf [Refresh (ex_env 1000 [ex_chlng]); Refresh (ex_env 1100 [ex_scrypt]);
     Refresh (ex_env 1200 [mac_frame (sc ex_pd_sc) 101 2 [104; 0; 1; 0; 0]]);
     Refresh (ex_env 61000 [plain_frame 101 0 [97; 0]]); Refresh (ex_env 61100 [ex_scrypt]);
     Refresh (ex_env 61200 [mac_frame (sc ex_pd_sc) 101 2 [104; 0; 1; 0; 0]])]).
  exists (state_of r), (firstn 2 (outs_of r)), (firstn 3 (skipn 3 (outs_of r))), (skipn 7 (outs_of r)).
  split; [exact ex_pd_enf_reach|]. split; [reflexivity|]. split; [reflexivity|]. split; [reflexivity|].
  split; [ex_calls|]. split; vm_compute; reflexivity.
Qed.
Print Assumptions C50_replay_refuted.

(** C51 is false: a command that is repeated with the same number (because the answer got lost) is executed twice. *)
Theorem C51_repeat_refuted : exists p f q,
  pd_reach p /\ f = plain_frame 101 1 [104; 0; 1; 0; 0] /\
  run p [Refresh (ex_env 1000 [plain_frame 101 0 [96]]); Refresh (ex_env 1100 [f]); Refresh (ex_env 1400 [f])] =
    Ok (q, [OTx (plain_frame 229 0 [64]); OCmd (COutput 0 1 0); OTx (plain_frame 229 1 [64]);
            OCmd (COutput 0 1 0); OTx (plain_frame 229 1 [64])]).
Proof.
  exists ex_pd, (plain_frame 101 1 [104; 0; 1; 0; 0]). eexists. split; [exact ex_pd_reach|]. split; [reflexivity|]. vm_compute; reflexivity.
Qed.
Print Assumptions C51_repeat_refuted.
