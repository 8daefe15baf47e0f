(** Both ends of a line stay in step. *)
From Verif Require Import Base ListLemmas Crc SpecCrc CrcProofs CrcBurst Aes AesProofs Rb RbProofs
  Types Sc ScProofs Phy PhyCheck File Pd Cp SpecRx SpecFrame SpecSec SpecSession SpecPd SpecLink RxProofs RxFwd PdRx PdCore PhyTx PdTx PdReply
  PdStep PdRun PdWire PdFwd PdSec PdHist2 MacProofs WireSec CpCtx SpecCp SpecCpRun CpTx CpRx CpStep CpInv CpFwd Chunk Trip ChunkRun LinkProofs.
From Coq Require Import ZifyBool ZifyNat.
Ltac Zify.zify_post_hook ::= Z.div_mod_to_equations.
Local Opaque aes_ecb_encrypt aes_cbc_encrypt aes_cbc_decrypt mac_of RB_SIZE osdp_mac enc1 osdp_encrypt encrypt_data secure_frame secure_mac.

Lemma delivers_marked s m f rest : m = [] \/ m = [255] -> delivers s (m ++ f) rest -> delivers s f rest.
Proof.
  intros [-> | ->] (n & mk & E & N & M); [exists n, mk; auto|]. exists (n ++ mk), [255]. rewrite <- !app_assoc in *. split; [exact E|]. split; [|right; reflexivity].
  intros X. apply in_app_or in X as [X|X]; [exact (N X)|]. destruct M as [-> | ->]; [destruct X|destruct X as [X|X]; [discriminate|destruct X]].
Qed.

Lemma nothing_pending p : rx_base p -> pending p = [] -> pblen p <= 0 /\ rb_contents (rb p) = [].
Proof.
  intros (_ & _ & L & _) P. unfold pending in P. apply app_eq_nil in P as [P R]. split; [|exact R].
  apply (f_equal (@length Z)) in P. rewrite firstn_length, L in P. cbn [length] in P. lia.
Qed.

Lemma stream_snoc es e : stream (es ++ [e]) = stream es ++ heard (e_rx e).
Proof. unfold stream. rewrite map_app, concat_app. cbn [map concat]. rewrite app_nil_r. reflexivity. Qed.

Lemma mk_cases p : mk_of p = [] \/ mk_of p = [255].
Proof. unfold mk_of. destruct (has_mark (fl p)); auto. Qed.

Lemma quiet_ready p : quiet p -> skip_seq (fl p) = false -> -1 <= seqn p <= 3 -> rx_ready p.
Proof.
  intros (Q1 & Q2 & Q3 & Q4 & Q5 & Q6) S N. constructor; [|unfold rx_sync; lia| |exact S|exact N].
  - split; [split; [exact Q4|split; [rewrite Q3; constructor|split; assumption]]|]. left. lia.
  - unfold pending. rewrite Q1, Q3. reflexivity.
Qed.

Lemma pad_len n : 0 <= n -> aes_pad_len (n + 1) = 16 * ((n + 16) / 16).
Proof. intros H. unfold aes_pad_len. replace (n + 1 + 15) with (n + 16) by lia. apply Z.mul_comm. Qed.

Lemma room_ok n ty code data : payload_ok n ty code data -> sec_room ty data <= n.
Proof.
  intros (_ & _ & _ & _ & H). unfold sec_room. pose proof (zlen_nonneg data). destruct ((ty =? 23) || (ty =? 24)); [rewrite pad_len by lia|]; exact H.
Qed.

Lemma in_step_keys c p : in_step c p -> sc_keys_ok (sc c) /\ sc_keys_ok (sc p).
Proof.
  intros I. pose proof (is_bytes _ _ I) as H. destruct (is_keys _ _ I) as (E1 & E2 & E3). pose proof (is_chain _ _ I) as E4.
  inversion H as [|? ? A H1]; subst. inversion H1 as [|? ? B H2]; subst. inversion H2 as [|? ? C H3]; subst. inversion H3 as [|? ? D H4]; subst.
  inversion H4 as [|? ? E H5]; subst. inversion H5 as [|? ? F _]; subst.
  unfold sc_keys_ok. rewrite E1, E2, E3, E4. split; [exact (conj A (conj B (conj C (conj D E))))|exact (conj A (conj B (conj C (conj D F))))].
Qed.

Lemma seq_next_pos s : 0 <= s <= 3 -> 1 <= seq_next s <= 3 /\ seq_next s <> s.
Proof. intros H. unfold seq_next. destruct (s =? 3) eqn:E; lia. Qed.

(* everything but receive buffers, number, chaining values, and the marks of mark, broadcast and session *)
Definition linkless (r : pd) : pd := set_sc_active false (set_seqn 0 (set_sc (cset_r_mac [] (cset_c_mac [] (sc r))) (set_broadcast false r))).
Definition linkcore (p : pd) : pd := linkless (rxcore p).
Lemma rx_linkcore p q : rxcore q = rxcore p -> linkcore q = linkcore p.
Proof. intros H. unfold linkcore. rewrite H. reflexivity. Qed.

(* command from panel to device *)
Lemma step_cmd c p e n ty code data : in_step c p -> quiet c -> quiet p -> payload_ok n ty code data -> n <= e_tx e ->
  exists c1 m f, transmit e c n ty (code :: data) = Ok (c1, true, [OTx (m ++ f)]) /\ (m = [] \/ m = [255]) /\ quiet c1 /\ (linkcore c1 = linkcore c /\ seqn c1 = seq_next (seqn c)) /\
  forall es h rest, Forall chunk_ok (es ++ [h]) -> delivers (stream (es ++ [h])) f rest -> (length rest < length (heard (e_rx h)))%nat ->
  exists p1, takes p es h (code :: data) p1 /\ in_step_reply c1 p1 /\ 1 <= seqn p1 /\ rx_base p1 /\ rb_contents (rb p1) = rest /\ linkcore p1 = linkcore p.
Proof.
  intros I Qc Qp PO TX. destruct (in_step_keys c p I) as [Kc Kp]. pose proof (room_ok _ _ _ _ PO) as RO. destruct PO as (T & Bc & Bd & N & _).
  destruct I as [[Mc Mp [Sc Sp] [Ad Ar] Bb] [Ac Ap] Cap [Sq Sr] (E1 & E2 & E3) E4 Bk].
  destruct (transmit_secure e c n ty code data ltac:(lia) Ac Kc T Bc Bd N RO TX) as ((b & TR & BO) & LF & Bm).
  assert (TA : tx_addr c = address c) by (unfold tx_addr; rewrite Mc; lia).
  assert (TN : tx_num c = seq_next (seqn c)) by (unfold tx_num; rewrite Mc; reflexivity).
  assert (LO : last_out c = r_mac (sc c)) by (unfold last_out; rewrite Mc; reflexivity).
  assert (LI : last_in p = r_mac (sc c)) by (unfold last_in; rewrite Mp; exact E4).
  rewrite TA, TN, LO in *. destruct (seq_next_pos (seqn c) Sr) as [SN1 SN2].
  set (f := secure_frame _ _ _ _ _ _ _ _ _) in *. set (m := secure_mac _ _ _ _ _ _ _ _ _) in *.
  exists (set_pbuf b (put_mac (tx_on c) m)), (mk_of (tx_on c)), f. split; [exact TR|]. split; [apply mk_cases|].
  assert (BB : length b = 256%nat /\ bytes b) by (apply BO; split; apply Qc).
  split. { destruct Qc as (Q1 & Q2 & Q3 & Q4 & Q5 & Q6). unfold put_mac, tx_on. rewrite Mc. simpl. rewrite Mc. exact (conj Q1 (conj Q2 (conj Q3 (conj Q4 BB)))). }
  split. { unfold put_mac, tx_on. rewrite Mc. simpl. rewrite Mc. split; reflexivity. }
  intros es h rest C D Lt.
  destruct (take_secure p es h (address c) (seq_next (seqn c)) ty code data rest (quiet_ready p Qp Sp ltac:(lia)) C Ap Kp
    ltac:(intros _; unfold sc_is_capable; rewrite (proj1 Cap), (proj2 Cap); reflexivity) T Bc ltac:(unfold byte; lia) ltac:(rewrite Mp; cbn [negb]; symmetry; apply Z.leb_gt; lia)
    ltac:(left; rewrite Ad; lia) SN1 Bd ltac:(unfold accepts; rewrite Mp, Sq; unfold seq_ok; auto)) as (p1 & TK & Rc & Rb & B1 & Bm' & FS & FA).
  { rewrite E1, E2, E3, LI. fold f. unfold sec_room in *. lia. } { rewrite E1, E2, E3, LI. exact D. } { exact Lt. }
  rewrite E1, E2, E3, LI in Rc, FS, FA. fold f in Rc, FS, FA. fold m in Rc.
  exists p1. split; [exact TK|].
  assert (SE : rxcore (took_mac (seen f p) m) = rxcore (set_c_mac m (set_seqn (seq_next (seqn c)) p))).
  { unfold took_mac, seen, pd_seen. rewrite Mp. rewrite FS, FA. replace (seq_next (seqn c) =? 0) with false by lia. replace (address c mod 128 =? 127) with false by lia.
    unfold seq_after. rewrite Sq. replace (seq_next (seqn c) =? 0) with false by lia. replace (seq_next (seqn c) =? seqn c) with false by lia. simpl. rewrite Mp. reflexivity. }
  rewrite SE in Rc. clear SE.
  set (y := set_c_mac m (set_seqn (seq_next (seqn c)) p)) in *.
  assert (F1 : pd_mode (fl p1) = true) by (rewrite <- Mp; exact (f_equal (fun x => pd_mode (fl x)) Rc)).
  assert (F2 : skip_seq (fl p1) = false) by (rewrite <- Sp; exact (f_equal (fun x => skip_seq (fl x)) Rc)).
  assert (F3 : address p1 = address p) by exact (f_equal (fun x => address x) Rc).
  assert (F4 : broadcast (fl p1) = false) by (rewrite <- Bb; exact (f_equal (fun x => broadcast (fl x)) Rc)).
  assert (F5 : sc_active (fl p1) = true) by (rewrite <- Ap; exact (f_equal (fun x => sc_active (fl x)) Rc)).
  assert (F6 : sc_capable (fl p1) = true) by (rewrite <- (proj1 Cap); exact (f_equal (fun x => sc_capable (fl x)) Rc)).
  assert (F7 : sc_disabled (fl p1) = false) by (rewrite <- (proj2 Cap); exact (f_equal (fun x => sc_disabled (fl x)) Rc)).
  assert (F8 : seqn p1 = seq_next (seqn c)) by exact (f_equal (fun x => seqn x) Rc).
  assert (F9 : sc p1 = cset_c_mac m (sc p)) by exact (f_equal (fun x => sc x) Rc).
  split; [|split; [lia|split; [exact B1|split; [exact Rb|rewrite (rx_linkcore _ _ Rc); reflexivity]]]].
  assert (PM : set_pbuf b (put_mac (tx_on c) m) = set_pbuf b (set_c_mac m (set_seqn (seq_next (seqn c)) (set_has_mark true c)))).
  { unfold put_mac, tx_on. rewrite Mc. simpl. rewrite Mc. reflexivity. }
  rewrite PM. split; [|rewrite F9; reflexivity]. constructor; simpl.
  - constructor; simpl; [exact Mc|exact F1|split; assumption|split; [congruence|exact Ar]|exact F4].
  - split; assumption.
  - split; assumption.
  - split; [exact F8|lia].
  - rewrite F9. simpl. repeat split; assumption.
  - rewrite F9. simpl. exact E4.
  - rewrite F9. simpl. destruct Kc as (Ka & Kb & Kcc & Kd & Ke). repeat (constructor; [first [exact Ka|exact Kb|exact Kcc|exact Kd|exact Bm]|]). constructor.
Qed.

(* reply from device to panel *)
Lemma step_rep c p e n ty code data : in_step_reply c p -> quiet c -> buf_ok (pbuf p) -> 1 <= seqn p -> payload_ok n ty code data -> n <= e_tx e ->
  exists p1 m f, transmit e p n ty (code :: data) = Ok (p1, true, [OTx (m ++ f)]) /\ (m = [] \/ m = [255]) /\ buf_ok (pbuf p1) /\ (rb p1 = rb p /\ linkcore p1 = linkcore p) /\
  forall es h rest, Forall chunk_ok (es ++ [h]) -> delivers (stream (es ++ [h])) f rest -> (length rest < length (heard (e_rx h)))%nat ->
  exists c1, takes c es h (code :: data) c1 /\ in_step_reply c1 p1 /\ rx_base c1 /\ rb_contents (rb c1) = rest /\ linkcore c1 = linkcore c.
Proof.
  intros [I E5] Qc Bp S1 PO TX. destruct (in_step_keys c p I) as [Kc Kp]. pose proof (room_ok _ _ _ _ PO) as RO. destruct PO as (T & Bc & Bd & N & _).
  destruct I as [[Mc Mp [Sc Sp] [Ad Ar] Bb] [Ac Ap] Cap [Sq Sr] (E1 & E2 & E3) E4 Bk].
  destruct (transmit_secure e p n ty code data ltac:(lia) Ap Kp T Bc Bd N RO TX) as ((b & TR & BO) & LF & Bm).
  assert (TA : tx_addr p = address c + 128) by (unfold tx_addr; rewrite Mp, Bb; lia).
  assert (TN : tx_num p = seqn c) by (unfold tx_num; rewrite Mp; lia).
  assert (LO : last_out p = c_mac (sc c)) by (unfold last_out; rewrite Mp; exact E5).
  assert (LI : last_in c = c_mac (sc c)) by (unfold last_in; rewrite Mc; reflexivity).
  rewrite TA, TN, LO in *. rewrite E1, E2, E3 in *.
  set (f := secure_frame _ _ _ _ _ _ _ _ _) in *. set (m := secure_mac _ _ _ _ _ _ _ _ _) in *.
  exists (set_pbuf b (put_mac (tx_on p) m)), (mk_of (tx_on p)), f. split; [exact TR|]. split; [apply mk_cases|]. split; [exact (BO Bp)|].
  assert (PM : set_pbuf b (put_mac (tx_on p) m) = set_pbuf b (set_r_mac m (set_broadcast false p))).
  { unfold put_mac, tx_on. rewrite Mp. simpl. rewrite Mp. reflexivity. }
  split; [rewrite PM; split; reflexivity|].
  intros es h rest C D Lt.
  destruct (take_secure c es h (address c + 128) (seqn c) ty code data rest (quiet_ready c Qc Sc ltac:(lia)) C Ac Kc
    ltac:(rewrite Mc; discriminate) T Bc ltac:(unfold byte; lia) ltac:(rewrite Mc; cbn [negb]; symmetry; apply Z.leb_le; lia)
    ltac:(left; lia) ltac:(lia) Bd ltac:(unfold accepts; rewrite Mc; lia)) as (c1 & TK & Rc & Rb & B1 & Bm' & FS & FA).
  { rewrite LI. fold f. unfold sec_room in *. lia. } { rewrite LI. exact D. } { exact Lt. }
  rewrite LI in Rc, FS, FA. fold f in Rc, FS, FA. fold m in Rc.
  exists c1. split; [exact TK|].
  assert (SE : rxcore (took_mac (seen f c) m) = rxcore (set_r_mac m c)).
  { unfold took_mac, seen. rewrite Mc. simpl. rewrite Mc. reflexivity. }
  rewrite SE in Rc. clear SE.
  set (y := set_r_mac m c) in *.
  assert (F1 : pd_mode (fl c1) = false) by (rewrite <- Mc; exact (f_equal (fun x => pd_mode (fl x)) Rc)).
  assert (F2 : skip_seq (fl c1) = false) by (rewrite <- Sc; exact (f_equal (fun x => skip_seq (fl x)) Rc)).
  assert (F3 : address c1 = address c) by exact (f_equal (fun x => address x) Rc).
  assert (F5 : sc_active (fl c1) = true) by (rewrite <- Ac; exact (f_equal (fun x => sc_active (fl x)) Rc)).
  assert (F8 : seqn c1 = seqn c) by exact (f_equal (fun x => seqn x) Rc).
  assert (F9 : sc c1 = cset_r_mac m (sc c)) by exact (f_equal (fun x => sc x) Rc).
  split; [|split; [exact B1|split; [exact Rb|rewrite (rx_linkcore _ _ Rc); reflexivity]]].
  rewrite PM. split; [|rewrite F9; exact E5]. constructor; simpl.
  - constructor; simpl; [exact F1|exact Mp|split; assumption|rewrite F3; split; [congruence|exact Ar]|reflexivity].
  - split; assumption.
  - exact Cap.
  - rewrite F8. split; assumption.
  - rewrite F9. simpl. repeat split; assumption.
  - rewrite F9. reflexivity.
  - rewrite F9, E5. simpl. destruct Kc as (Ka & Kb & Kcc & Kd & Ke). repeat (constructor; [first [exact Ka|exact Kb|exact Kcc|exact Ke|exact Bm]|]). constructor.
Qed.

Lemma waited_det p es q1 q2 : waited p es q1 -> waited p es q2 -> q1 = q2.
Proof.
  intros W. revert q2. induction W as [p|p e q k es r C K W IH]; intros q2 V; inversion V; subst; [reflexivity|].
  apply IH. match goal with H : check_packet e p = Ok _ |- _ => rewrite C in H; injection H as <- <- end. assumption.
Qed.

Lemma takes_det p es e d1 q1 d2 q2 : takes p es e d1 q1 -> takes p es e d2 q2 -> d1 = d2 /\ q1 = q2.
Proof.
  intros (a & b & W & C & D) (a' & b' & W' & C' & D'). pose proof (waited_det _ _ _ _ W W') as <-. rewrite C in C'. injection C' as <-.
  rewrite D in D'. injection D' as <- <-. auto.
Qed.

Lemma keeps_step_p c p q : keeps_link p q -> in_step_reply c p -> in_step_reply c q.
Proof.
  intros (F & S & N & A & _) [[[Mc Mp Sk Ad Bb] Ac Cap Sq E4 E5 Bk] E6]. split; [|rewrite S; exact E6]. constructor; rewrite ?F, ?S, ?N; auto.
  constructor; rewrite ?F, ?A; auto.
Qed.

Lemma keeps_step_c c p q : keeps_link c q -> in_step_reply c p -> in_step_reply q p.
Proof.
  intros (F & S & N & A & _) [[[Mc Mp Sk Ad Bb] Ac Cap Sq E4 E5 Bk] E6]. split; [|rewrite S; exact E6]. constructor; rewrite ?F, ?S, ?N; auto.
  constructor; rewrite ?F, ?A; auto.
Qed.

Lemma reset_quiet p : rb_contents (rb p) = [] -> rb_wf (rb p) -> buf_ok (pbuf p) -> quiet (state_reset false p).
Proof. intros A B [C D]. exact (conj eq_refl (conj eq_refl (conj A (conj B (conj C D))))). Qed.

Lemma reset_step c p : in_step c p -> in_step (state_reset false c) (state_reset false p).
Proof. intros [[Mc Mp Sk Ad Bb] Ac Cap Sq E4 E5 Bk]. constructor; simpl; auto. constructor; simpl; auto. Qed.

Lemma exchanged_step c p c' p' : exchanged c p c' p' -> in_step c p -> quiet c -> quiet p -> in_step c' p' /\ quiet c' /\ quiet p'.
Proof.
  intros [n1 ty1 code1 data1 c1 w1 e1 es1 h1 p1 p2 n2 ty2 code2 data2 p3 w2 e2 es2 h2 c2 c3 P1 X1 T1 D1 C1 H1 K1 L1 P2 X2 T2 D2 C2 H2 K2 L2 -> ->] I Qc Qp.
  destruct (step_cmd c p e1 n1 ty1 code1 data1 I Qc Qp P1 X1) as (c1' & m & f & TR & M & Qc1 & _ & G).
  rewrite T1 in TR. injection TR as <- ->.
  destruct (G es1 h1 [] C1 (delivers_marked _ _ _ _ M D1)) as (p1' & K1' & I1 & S1 & B1 & R1 & _).
  { cbn [length]. destruct (heard (e_rx h1)); [contradiction|cbn [length]; lia]. }
  destruct (takes_det _ _ _ _ _ _ _ K1 K1') as [_ <-]. clear K1' G.
  pose proof (keeps_step_p c1 p1 p2 L1 I1) as I2. destruct L1 as (F & Sc & N & A & Rb & Pb & _).
  destruct (step_rep c1 p2 e2 n2 ty2 code2 data2 I2 Qc1) as (p3' & m2 & f2 & TR & M2 & Bp3 & (Rb3 & _) & G).
  { rewrite Pb. split; apply B1. } { rewrite N. exact S1. } { exact P2. } { exact X2. }
  rewrite T2 in TR. injection TR as <- ->.
  destruct (G es2 h2 [] C2 (delivers_marked _ _ _ _ M2 D2)) as (c2' & K2' & I3 & B2 & R2 & _).
  { cbn [length]. destruct (heard (e_rx h2)); [contradiction|cbn [length]; lia]. }
  destruct (takes_det _ _ _ _ _ _ _ K2 K2') as [_ <-]. clear K2' G.
  pose proof (keeps_step_c c2 p3 c3 L2 I3) as I4. destruct L2 as (F' & Sc' & N' & A' & Rb' & Pb' & _).
  split; [apply reset_step; exact (proj1 I4)|]. split.
  - apply reset_quiet; rewrite ?Rb', ?Pb'; [exact R2|apply B2|split; apply B2].
  - apply reset_quiet; [rewrite Rb3, Rb; exact R1|rewrite Rb3, Rb; apply B1|exact Bp3].
Qed.

Lemma exchanges_step c p c' p' : exchanges c p c' p' -> in_step c p -> quiet c -> quiet p -> in_step c' p' /\ quiet c' /\ quiet p'.
Proof. intros X I Qc Qp. induction X as [|c p c1 p1 c2 p2 X IH Y]; [auto|]. destruct (IH I Qc Qp) as (I1 & Q1 & Q2). exact (exchanged_step _ _ _ _ Y I1 Q1 Q2). Qed.
