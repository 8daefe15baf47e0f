(** PD: the reply phase of a refresh. *)
From Verif Require Import Base ListLemmas Crc SpecCrc CrcProofs CrcBurst Aes AesProofs Rb RbProofs
  Types Sc ScProofs Phy PhyCheck File Pd SpecRx SpecFrame RxProofs PdRx PdCore PhyTx PdTx.
From Coq Require Import ZifyBool ZifyNat.
Ltac Zify.zify_post_hook ::= Z.div_mod_to_equations.
Local Opaque aes_ecb_encrypt aes_cbc_encrypt aes_cbc_decrypt mac_of.

Ltac zl := repeat (rewrite zlen_app || rewrite zlen_cons); change (zlen (@nil Z)) with 0.

Definition pd_addr (p : pd) : Z := Z.lor (if broadcast (fl p) then 127 else Z.land (address p) 127) 128.
Definition pd_ctl (p : pd) : Z := Z.lor (Z.land (seqn p) 3) 4.

Lemma land3 x : Z.land x 3 = x mod 4.
Proof. change 3 with (Z.ones 2). rewrite Z.land_ones by lia. reflexivity. Qed.

Lemma land127 x : Z.land x 127 = x mod 128.
Proof. change 127 with (Z.ones 7). rewrite Z.land_ones by lia. reflexivity. Qed.

Lemma lor128 x : 0 <= x < 128 -> Z.lor x 128 = x + 128.
Proof.
  intros. assert (L : Z.land x 128 = 0).
  { apply Z.bits_inj'. intros n Hn. rewrite Z.land_spec, Z.bits_0. change 128 with (2 ^ 7).
    destruct (Z.eq_dec n 7) as [->|N].
    - rewrite testbit_div by lia. change (2 ^ 7) with 128. rewrite Z.div_small by lia. reflexivity.
    - rewrite Z.pow2_bits_false by lia. apply andb_false_r. }
  rewrite <- Z.lxor_lor by auto. symmetry. apply Z.add_nocarry_lxor. auto.
Qed.

Lemma pd_addr_eq p : pd_addr p = (if broadcast (fl p) then 127 else address p mod 128) + 128.
Proof. unfold pd_addr. rewrite land127, lor128; auto. destruct (broadcast (fl p)); lia. Qed.

Lemma pd_ctl_cases p : In (pd_ctl p) [4; 5; 6; 7] /\ pd_ctl p = 4 + seqn p mod 4.
Proof.
  unfold pd_ctl. rewrite land3. assert (H : 0 <= seqn p mod 4 < 4) by lia.
  assert (H2 : seqn p mod 4 = 0 \/ seqn p mod 4 = 1 \/ seqn p mod 4 = 2 \/ seqn p mod 4 = 3) by lia.
  destruct H2 as [->|[->|[->| ->]]]; (split; [simpl; tauto|reflexivity]).
Qed.

(* a packet as pd_build_reply leaves it, without mark and with the length not yet filled in *)
Definition reply_body (p : pd) (pay : option (list Z)) (ss : option (Z * Z)) : list Z :=
  let d := match pay with Some d => d | None => [65; 9] end in
  let c8 := Z.lor (pd_ctl p) 8 in
  if in_sc_handshake true (reply_id p) then
    match ss with
    | Some (ty, b) => [83; pd_addr p; 0; 0; c8; 3; ty; b] ++ (if sc_active (fl p) then tl d else d)
    | None => []
    end
  else if sc_active (fl p) then
    [83; pd_addr p; 0; 0; c8; 2; match pay with Some (_ :: _ :: _) => 24 | _ => 22 end] ++ d
  else [83; pd_addr p; 0; 0; pd_ctl p] ++ d.

Definition after_init (p : pd) : pd :=
  set_pbuf (blit (pbuf p) 0 (mk_of p ++ pd_hdr p)) (set_broadcast false p).

Lemma pd_hdr_len p : (5 <= length (pd_hdr p) <= 8)%nat.
Proof. unfold pd_hdr. cbv zeta. dif; [simpl; lia|]. dif; simpl; lia. Qed.

Lemma byte_pd_addr p : byte (pd_addr p).
Proof. rewrite pd_addr_eq. unfold byte. destruct (broadcast (fl p)); lia. Qed.

Lemma byte_pd_ctl8 p : byte (Z.lor (pd_ctl p) 8) /\ byte (pd_ctl p).
Proof.
  destruct (pd_ctl_cases p) as [H _]. unfold byte. simpl in H.
  destruct H as [<-|[<-|[<-|[<-|[]]]]]; simpl; lia.
Qed.

Lemma bytes_pd_hdr p : bytes (pbuf p) -> bytes (pd_hdr p).
Proof.
  intros B. unfold pd_hdr. cbv zeta. fold (pd_addr p) (pd_ctl p).
  pose proof (byte_pd_addr p). destruct (byte_pd_ctl8 p). pose proof (bytes_getb (pbuf p) (mark_len p + 7) B).
  dif; [bytes_cons; auto; unfold byte; lia|]. dif; bytes_cons; auto; unfold byte; lia.
Qed.

Lemma bytes_mk p : bytes (mk_of p).
Proof. unfold mk_of. dif; bytes_cons. unfold byte; lia. Qed.

Lemma mk_of_len p : (length (mk_of p) <= 1)%nat.
Proof. unfold mk_of. dif; simpl; lia. Qed.

Lemma after_init_typed p : pd_typed p -> pd_typed (after_init p).
Proof.
  intros (A & B & C & D & E & F). apply mk_typed; auto; simpl.
  - pose proof (pd_hdr_len p). pose proof (mk_of_len p).
    rewrite blit_length; auto; unfold zlen; rewrite ?app_length; lia.
  - apply bytes_blit; auto. apply bytes_app; split; [apply bytes_mk|apply bytes_pd_hdr; auto].
Qed.

(* room for the payload of a reply, and whether the packet has a security block *)
Definition reply_room (p : pd) : Z := tx_buf_size p - zlen (mk_of p ++ pd_hdr p).
Definition reply_smb (p : pd) : bool := sc_active (fl p) || in_sc_handshake true (reply_id p).

Lemma reply_smb_hs p : in_sc_handshake true (reply_id p) = true -> reply_smb p = true.
Proof. unfold reply_smb. intros ->. apply orb_true_r. Qed.

Lemma build_reply_spec e p n q f o : pd_mode (fl p) = true -> pd_typed p -> bytes (e_rand e) -> 69 <= n <= 256 ->
  build_reply e (after_init p) (mk_of p ++ pd_hdr p) n = Ok (q, f, o) ->
  exists pay ss m smb,
    build_switch e (after_init p) smb m = Ok (q, pay, ss, o) /\
    f = mk_of p ++ reply_body p pay ss /\ zlen f <= n /\ 60 <= m /\
    m = n - zlen (mk_of p ++ pd_hdr p) /\ smb = reply_smb p.
Proof.
  intros M T R N H. unfold build_reply in H.
  set (p1 := after_init p) in *.
  assert (T1 : pd_typed p1) by (apply after_init_typed; auto).
  assert (HM : mark_len p1 = mark_len p) by reflexivity.
  unfold data_offset, smb_pos in H. rewrite HM in H.
  set (off := mark_len p + 5 + _) in H. cbv zeta in H.
  set (smb := if ctl_scb _ then Some (mark_len p + 5) else None) in H.
  assert (SC : sc_active (fl p1) = sc_active (fl p)) by reflexivity.
  assert (RI : reply_id p1 = reply_id p) by reflexivity.
  assert (F : off = zlen (mk_of p ++ pd_hdr p) /\
              smb = if sc_active (fl p) || in_sc_handshake true (reply_id p) then Some (mark_len p + 5) else None).
  { unfold off, smb, pd_hdr, mk_of, mark_len. fold (pd_addr p) (pd_ctl p).
    destruct (pd_ctl_cases p) as [C _]. simpl in C.
    destruct C as [<-|[<-|[<-|[<-|[]]]]];
    destruct (has_mark (fl p)), (sc_active (fl p)), (in_sc_handshake true (reply_id p)); split; reflexivity. }
  destruct F as [F1 F2]. rewrite F2 in H. clearbody off smb. clear F2.
  assert (Lh : zlen (mk_of p ++ pd_hdr p) <= 9).
  { pose proof (pd_hdr_len p). pose proof (mk_of_len p). unfold zlen. rewrite app_length. lia. }
  set (hs := in_sc_handshake true (reply_id p)) in *.
  set (sm := match (if sc_active (fl p) || hs then Some (mark_len p + 5) else None) with Some _ => true | None => false end) in H.
  destruct (build_switch e p1 sm (n - off)) as [[[[q1 pay] ss] o1]| |] eqn:BS; cbn [bind] in H; try discriminate.
  destruct (build_switch_ok e p1 sm (n - off) _ _ _ _ T1 R ltac:(lia) BS) as (_ & _ & P & BR & S).
  rewrite RI in S. fold hs in S.
  assert (SMH : hs = true -> sm = true) by (unfold sm; intros ->; rewrite orb_true_r; auto).
  assert (RQ : reply_id q1 = reply_id p).
  { destruct BR as [->|[(_ & a & b & _ & ->)|[(_ & fx & ->)|[(_ & ->)|[(_ & _ & ->)|(_ & _ & ->)]]]]]; reflexivity. }
  assert (AQ : sc_active (fl p) = true -> sc_active (fl q1) = true).
  { intros A. destruct BR as [->|[(_ & a & b & _ & ->)|[(_ & fx & ->)|[(_ & ->)|[(_ & _ & ->)|(_ & _ & ->)]]]]]; auto. }
  assert (AF : hs = false -> sc_active (fl q1) = sc_active (fl p)).
  { intros A. unfold hs, in_sc_handshake in A. destruct BR as [->|[(_ & a & b & _ & ->)|[(_ & fx & ->)|[(X & ->)|[(X & _ & ->)|(X & _ & ->)]]]]]; auto; rewrite RI in X; rewrite X in A; discriminate. }
  destruct (pd_ctl_cases p) as [C _].
  exists pay, ss, (n - off), sm.
  assert (SME : sm = reply_smb p) by (unfold sm, reply_smb; fold hs; destruct (sc_active (fl p) || hs); reflexivity).
  assert (OFE : n - off = n - zlen (mk_of p ++ pd_hdr p)) by (rewrite F1; reflexivity).
  assert (G : q1 = q /\ o1 = o /\ f = mk_of p ++ reply_body p pay ss /\ zlen f <= n).
  { unfold reply_body. fold hs. unfold pay_ok in P.
    destruct hs eqn:EH.
    - specialize (SMH eq_refl). destruct ss as [[ty b]|].
      2:{ specialize (S eq_refl). congruence. }
      destruct S as (S1 & S2 & S3 & S4 & _).
      destruct pay as [d|]; [|congruence]. destruct P as (P1 & P2 & t & ->).
      rewrite orb_true_r in H.
      assert (E : mk_of p ++ pd_hdr p = mk_of p ++ ([83; pd_addr p; 0; 0; Z.lor (pd_ctl p) 8] ++
         (if sc_active (fl p) then [2; 21] else [3; 17; getb (pbuf p) (mark_len p + 7)]))).
      { unfold pd_hdr. fold hs. rewrite EH. fold (pd_addr p) (pd_ctl p). destruct (sc_active (fl p)); reflexivity. }
      rewrite E in *. clear E. subst off.
      assert (PS : put_smb (mark_len p + 5) ty b ((mk_of p ++ ([83; pd_addr p; 0; 0; Z.lor (pd_ctl p) 8] ++
         (if sc_active (fl p) then [2; 21] else [3; 17; getb (pbuf p) (mark_len p + 7)]))) ++ reply_id p1 :: t)
         = mk_of p ++ [83; pd_addr p; 0; 0; Z.lor (pd_ctl p) 8; 3; ty; b] ++ (if sc_active (fl p) then t else reply_id p1 :: t)).
      { unfold put_smb, mk_of, mark_len. destruct (has_mark (fl p)), (sc_active (fl p)); reflexivity. }
      rewrite PS in H.
      assert (GB : getb (mk_of p ++ [83; pd_addr p; 0; 0; Z.lor (pd_ctl p) 8; 3; ty; b] ++ (if sc_active (fl p) then t else reply_id p1 :: t)) (mark_len p + 5 + 1) = ty).
      { unfold mk_of, mark_len. destruct (has_mark (fl p)); reflexivity. }
      rewrite GB in H. assert (GT : (ty >? SCS_14) = false) by (unfold SCS_14; lia).
      rewrite GT in H. cbn [andb] in H. inv H. split; auto. split; auto.
      split; [destruct (sc_active (fl p)); reflexivity|].
      revert P2. destruct (sc_active (fl p)); zl; lia.
    - destruct ss as [[ty b]|]; [destruct S as (_ & _ & _ & _ & S); discriminate|].
      rewrite orb_false_r in *.
      assert (E : mk_of p ++ pd_hdr p = mk_of p ++ (if sc_active (fl p) then [83; pd_addr p; 0; 0; Z.lor (pd_ctl p) 8; 2; 21] else [83; pd_addr p; 0; 0; pd_ctl p])).
      { unfold pd_hdr. fold hs. rewrite EH. fold (pd_addr p) (pd_ctl p). destruct (sc_active (fl p)); reflexivity. }
      rewrite E in *. clear E. subst off. rewrite AF in H by auto.
      destruct (sc_active (fl p)) eqn:EA.
      + assert (GB : forall x, getb ((mk_of p ++ [83; pd_addr p; 0; 0; Z.lor (pd_ctl p) 8; 2; 21]) ++ x) (mark_len p + 5 + 1) = 21).
        { intros x. unfold mk_of, mark_len. destruct (has_mark (fl p)); reflexivity. }
        rewrite GB in H. change ((21 >? SCS_14) && true) with true in H. cbv iota in H.
        assert (UP : forall v x, upd (Z.to_nat (mark_len p + 5) + 1) v (upd (Z.to_nat (mark_len p + 5)) 2
             ((mk_of p ++ [83; pd_addr p; 0; 0; Z.lor (pd_ctl p) 8; 2; 21]) ++ x))
             = mk_of p ++ [83; pd_addr p; 0; 0; Z.lor (pd_ctl p) 8; 2; v] ++ x).
        { intros v x. unfold mk_of, mark_len. destruct (has_mark (fl p)); reflexivity. }
        rewrite UP in H. destruct pay as [d|].
        * destruct P as (P1 & P2 & t & ->). inv H. split; auto. split; auto. split.
          { f_equal. f_equal. destruct t as [|x t]; [reflexivity|].
            assert (X : zlen (reply_id p :: x :: t) >? 1 = true) by (rewrite !zlen_cons; pose proof (zlen_nonneg t); lia).
            rewrite X. reflexivity. }
          { revert P2; zl; lia. }
        * apply assert_len_ok in H as [L H]. inv H. split; auto. split; auto.
          rewrite RQ. assert (X : (if reply_id p =? REPLY_FTSTAT then 1 else 0) >? 1 = false) by (dif; lia).
          rewrite X. split; [rewrite <- app_assoc; reflexivity|].
          revert L; zl; lia.
      + destruct pay as [d|].
        * destruct P as (P1 & P2 & t & ->). inv H. split; auto. split; auto. rewrite <- app_assoc. split; [reflexivity|].
          revert P2; zl; lia.
        * apply assert_len_ok in H as [L H]. inv H. split; auto. split; auto.
          rewrite app_nil_r, <- app_assoc. split; [reflexivity|].
          revert L; zl; lia. }
  destruct G as (-> & -> & G1 & G2). repeat split; auto. lia.
Qed.

(* the frame put on the wire for a finished packet b *)
Definition wire_of (p : pd) (b : list Z) : list Z :=
  if macced p b
  then with_crc (put_len (zlen (sealed_body p b) + 6) (sealed_body p b) ++ firstn 4 (sealed_mac p b))
  else with_crc (put_len (zlen b + 2) b).

(* what the channel accepted of frame f; sent: all of it *)
Definition sent (e : env) (f : list Z) (ok : bool) (o : list out) : Prop :=
  (o = [] /\ ok = false /\ e_tx e < zlen f) \/
  (exists k, 0 < k < zlen f /\ o = [OTx (firstn (Z.to_nat k) f)] /\ ok = false /\ e_tx e < zlen f) \/
  (o = [OTx f] /\ ok = true).

Lemma channel_sent e f : f <> [] ->
  let n := channel_send e f in
  sent e f (n =? zlen f) (if n =? 0 then [] else [OTx (firstn (Z.to_nat n) f)]).
Proof.
  intros NE. cbv zeta. unfold channel_send.
  assert (L : 0 < zlen f) by (destruct f; [congruence|rewrite zlen_cons; pose proof (zlen_nonneg f); lia]).
  set (n := Z.max 0 (Z.min (e_tx e) (zlen f))). assert (N : 0 <= n <= zlen f) by (unfold n; lia).
  assert (N2 : n < zlen f -> e_tx e < zlen f) by (unfold n; lia). clearbody n.
  destruct (n =? 0) eqn:E0.
  - left. split; auto. split; lia.
  - destruct (n =? zlen f) eqn:E1.
    + right. right. split; auto. replace n with (zlen f) by lia. unfold zlen. rewrite Nat2Z.id, firstn_all. auto.
    + right. left. exists n. split; [lia|]. split; auto. split; auto. lia.
Qed.

Lemma txcore_flags p q : txcore q = txcore p -> fl q = fl p.
Proof. intros H. apply (f_equal (fun x => fl x)) in H. exact H. Qed.

Lemma reply_body_facts e p pay ss m smb p2 o : pd_typed p -> bytes (e_rand e) -> 60 <= m ->
  build_switch e (after_init p) smb m = Ok (p2, pay, ss, o) ->
  smb = reply_smb p ->
  let b := reply_body p pay ss in
  bytes b /\ nth 0 b 0 = 83 /\ nth 1 b 0 = pd_addr p /\ 6 <= zlen b < 248 /\
  (nth 4 b 0 = pd_ctl p \/ nth 4 b 0 = Z.lor (pd_ctl p) 8) /\
  macced p2 b = sc_active (fl p) && negb (in_sc_handshake true (reply_id p)) /\
  (macced p2 b = true -> getb b 5 = 2 /\ 8 <= zlen b).
Proof.
  intros T R Hm BS SM0. cbv zeta.
  assert (SM : in_sc_handshake true (reply_id p) = true -> smb = true) by (rewrite SM0; apply reply_smb_hs).
  pose proof (after_init_typed p T) as T1.
  destruct (build_switch_ok e _ smb m _ _ _ _ T1 R Hm BS) as (_ & _ & P & BR & S).
  change (reply_id (after_init p)) with (reply_id p) in *.
  pose proof (byte_pd_addr p) as Ba. destruct (byte_pd_ctl8 p) as [B8 B4].
  unfold reply_body. set (hs := in_sc_handshake true (reply_id p)) in *.
  set (d := match pay with Some d => d | None => [65; 9] end).
  assert (D : bytes d /\ 1 <= zlen d <= 134 /\ (pay <> None -> exists t, d = reply_id p :: t)).
  { unfold d. unfold pay_ok in P. destruct pay as [x|].
    - destruct P as (P1 & P2 & t & ->). split; auto. split; [|eauto]. rewrite zlen_cons in *. pose proof (zlen_nonneg t). lia.
    - split; [bytes_cons; unfold byte; lia|]. split; [unfold zlen; simpl; lia|congruence]. }
  destruct D as (D1 & D2 & D3).
  destruct hs eqn:EH.
  - destruct ss as [[ty bb]|]; [|specialize (S eq_refl); specialize (SM eq_refl); congruence].
    destruct S as (S1 & S2 & _ & S4 & _).
    set (d' := if sc_active (fl p) then tl d else d).
    assert (Bd : bytes d' /\ 0 <= zlen d' <= 134).
    { unfold d'. destruct (sc_active (fl p)); [|split; auto; lia].
      destruct (D3 S4) as (t & ->). cbn [tl]. inv D1. split; auto. rewrite zlen_cons in D2. pose proof (zlen_nonneg t). lia. }
    destruct Bd as [Bd Ld]. clearbody d'.
    split; [apply (bytes_app [83; pd_addr p; 0; 0; Z.lor (pd_ctl p) 8; 3; ty; bb]); split; auto; bytes_cons; auto; unfold byte; lia|].
    split; [reflexivity|]. split; [reflexivity|]. split; [zl; lia|]. split; [right; reflexivity|].
    assert (MM : macced p2 ([83; pd_addr p; 0; 0; Z.lor (pd_ctl p) 8; 3; ty; bb] ++ d') = false).
    { unfold macced. change (getb _ 6) with ty. assert (X : 21 <=? ty = false) by lia. rewrite X. apply andb_false_r. }
    rewrite MM. cbn [negb]. rewrite andb_false_r. split; [reflexivity|discriminate].
  - assert (SA : sc_active (fl p2) = sc_active (fl p)).
    { unfold hs, in_sc_handshake in EH. destruct BR as [->|[(_ & a & b & _ & ->)|[(_ & fx & ->)|[(X & ->)|[(X & _ & ->)|(X & _ & ->)]]]]]; auto;
      change (reply_id (after_init p)) with (reply_id p) in X; rewrite X in EH; discriminate. }
    destruct (sc_active (fl p)) eqn:EA.
    + set (ty := match pay with Some (_ :: _ :: _) => 24 | _ => 22 end).
      assert (Ty : ty = 24 \/ ty = 22) by (unfold ty; destruct pay as [[|? [|? ?]]|]; auto).
      clearbody ty.
      split; [apply (bytes_app [83; pd_addr p; 0; 0; Z.lor (pd_ctl p) 8; 2; ty]); split; auto; bytes_cons; auto; unfold byte; lia|].
      split; [reflexivity|]. split; [reflexivity|]. split; [zl; lia|]. split; [right; reflexivity|].
      split; [|split; [reflexivity|zl; lia]].
      unfold macced. rewrite SA. change (getb _ 6) with ty. change (getb _ 4) with (Z.lor (pd_ctl p) 8).
      destruct (pd_ctl_cases p) as [C _]. simpl in C.
      assert (X : 21 <=? ty = true) by lia. rewrite X.
      destruct C as [<-|[<-|[<-|[<-|[]]]]]; reflexivity.
    + split; [apply (bytes_app [83; pd_addr p; 0; 0; pd_ctl p]); split; auto; bytes_cons; auto; unfold byte; lia|].
      split; [reflexivity|]. split; [reflexivity|]. split; [zl; lia|]. split; [left; reflexivity|].
      unfold macced. rewrite SA. cbn [andb]. split; [reflexivity|discriminate].
Qed.

Lemma sealed_mac_blk p b : sc_keys_ok (sc p) -> bytes b -> 8 <= zlen b -> blk (sealed_mac p b).
Proof.
  intros K B L.
  assert (Bs : bytes (sealed_body p b)).
  { unfold sealed_body. dif; auto. apply bytes_app. split; [apply bytes_firstn; auto|].
    apply encrypt_data_length; auto. apply bytes_skipn; auto. }
  assert (Ls : 8 <= zlen (sealed_body p b)).
  { unfold sealed_body. dif; auto. rewrite zlen_app.
    pose proof (zlen_nonneg (encrypt_data (negb (pd_mode (fl p))) (sc p) (skipn 8 b))).
    unfold zlen at 1. rewrite firstn_length. unfold zlen in L. lia. }
  destruct K as (K1 & K2 & K3 & K4 & K5). unfold sealed_mac. apply blk_mac_of; auto.
  - destruct (pd_mode (fl p)); auto.
  - intros E. apply (f_equal zlen) in E. rewrite zlen_put_len in E. change (zlen (@nil Z)) with 0 in E. lia.
  - apply bytes_put_len; auto.
Qed.

(* finishing a reply never fails; it fits or it is dropped *)
Lemma finalize_reply p p2 b : pd_typed p2 -> mk_of p2 = mk_of p -> pd_mode (fl p2) = true -> tx_buf_size p <= 256 ->
  bytes b -> nth 0 b 0 = 83 -> 6 <= zlen b < 248 -> (macced p2 b = true -> getb b 5 = 2 /\ 8 <= zlen b) ->
  exists q1 fo, packet_finalize p2 (mk_of p2 ++ b) (tx_buf_size p) = Ok (q1, fo) /\ txcore q1 = txcore p2 /\ pd_typed q1 /\
     ((fo = None /\ tx_buf_size p < zlen (mk_of p ++ wire_of p2 b)) \/
      (fo = Some (mk_of p ++ wire_of p2 b) /\ zlen (mk_of p ++ wire_of p2 b) <= tx_buf_size p /\
       sc q1 = if macced p2 b then cset_r_mac (sealed_mac p2 b) (sc p2) else sc p2)).
Proof.
  intros T2 HMk HP2 N Bb B0 Bl MC2.
  destruct T2 as (t1 & t2 & t3 & t4 & t5 & t6).
  assert (T2 : pd_typed p2) by (apply mk_typed; auto).
  rewrite HMk. unfold wire_of.
  assert (PB : forall f, bytes f -> zlen f <= 256 -> length (blit (pbuf p2) 0 f) = 256%nat /\ bytes (blit (pbuf p2) 0 f)).
  { intros f Bf Lf2. split; [rewrite blit_length; auto; unfold zlen in *; lia|apply bytes_blit; auto]. }
  destruct (macced p2 b) eqn:EM.
  - destruct (MC2 eq_refl) as [M5 M8].
    pose proof (finalize_secure p2 b (tx_buf_size p) Bb B0 M8 EM M5 (proj1 t4) N ltac:(right; lia)) as FS.
    cbv zeta in FS. rewrite HMk in FS.
    pose proof (sealed_mac_blk p2 b (proj1 t4) Bb M8) as Bm.
    assert (PM : put_mac p2 (sealed_mac p2 b) = set_r_mac (sealed_mac p2 b) p2) by (unfold put_mac; rewrite HP2; auto).
    rewrite PM in FS. clear PM.
    set (f := mk_of p ++ with_crc _) in *.
    assert (TM : pd_typed (set_r_mac (sealed_mac p2 b) p2)) by (apply mk_typed; auto; apply wf_r_mac; auto).
    destruct (zlen f >? tx_buf_size p) eqn:EF.
    + destruct FS as [FS|FS]; rewrite FS; eexists; eexists; (split; [reflexivity|]); (split; [reflexivity|]);
        (split; [auto|left; split; [reflexivity|lia]]).
    + rewrite FS. eexists; eexists; split; [reflexivity|]. split; [reflexivity|].
      assert (Bf : bytes f).
      { unfold f. apply bytes_app; split; [apply bytes_mk|].
        assert (Bx : bytes (put_len (zlen (sealed_body p2 b) + 6) (sealed_body p2 b) ++ firstn 4 (sealed_mac p2 b))).
        { apply bytes_app. split; [apply bytes_put_len|apply bytes_firstn; apply Bm].
          unfold sealed_body. dif; auto. apply bytes_app. split; [apply bytes_firstn; auto|].
          apply encrypt_data_length; [apply t4|]. apply bytes_skipn; auto. }
        rewrite with_crc_eq by auto. apply bytes_app. split; auto. bytes_cons; auto using byte_byte0, byte_byte1. }
      destruct (PB f Bf ltac:(lia)) as [PB1 PB2].
      split; [destruct TM as (u1 & u2 & u3 & u4 & u5 & u6); apply mk_typed; auto|].
      right. split; auto. split; [lia|reflexivity].
  - rewrite <- HMk. rewrite finalize_plain by (auto; lia). cbv zeta. rewrite HMk.
    set (f := mk_of p ++ with_crc _) in *.
    destruct (zlen f >? tx_buf_size p) eqn:EF.
    + eexists; eexists; (split; [reflexivity|]); (split; [reflexivity|]); (split; [auto|left; split; [reflexivity|lia]]).
    + eexists; eexists; split; [reflexivity|]. split; [reflexivity|].
      assert (Bf : bytes f).
      { unfold f. apply bytes_app; split; [apply bytes_mk|].
        rewrite with_crc_eq by (apply bytes_put_len; auto). apply bytes_app. split; [apply bytes_put_len; auto|]. bytes_cons; auto using byte_byte0, byte_byte1. }
      destruct (PB f Bf ltac:(lia)) as [PB1 PB2].
      split; [apply mk_typed; auto|]. right. split; auto. split; [lia|reflexivity].
Qed.

(* one reply: prepared, built and handed to the channel *)
Lemma send_reply_spec e p q ok o : pd_mode (fl p) = true -> pd_typed p -> bytes (e_rand e) -> tx_buf_size p <= 256 ->
  send_reply e p = Ok (q, ok, o) ->
  (tx_buf_size p < 69 /\ q = p /\ ok = false /\ o = []) \/
  (69 <= tx_buf_size p /\
   exists p2 pay ss m smb ob ot,
     build_switch e (after_init p) smb m = Ok (p2, pay, ss, ob) /\ 60 <= m /\
     (m = reply_room p /\ smb = reply_smb p) /\
     build_rel e (after_init p) p2 /\ no_tx ob /\
     txcore q = txcore p2 /\ pd_typed q /\ o = ob ++ ot /\
     let b := reply_body p pay ss in
     let f := mk_of p ++ wire_of p2 b in
     ((ot = [] /\ ok = false /\ tx_buf_size p < zlen f) \/
      (zlen f <= tx_buf_size p /\ sent e f ok ot /\
       sc q = if macced p2 b then cset_r_mac (sealed_mac p2 b) (sc p2) else sc p2))).
Proof.
  intros M T R N H. unfold send_reply in H. cbv zeta in H. rewrite packet_init_pd in H by auto.
  destruct (tx_buf_size p <? 69) eqn:E69; [left; inv H; repeat split; auto; lia|]. right. split; [lia|].
  fold (after_init p) in H.
  destruct (build_reply e (after_init p) (mk_of p ++ pd_hdr p) (tx_buf_size p)) as [[[p2 f] ob]| |] eqn:BR;
    cbn [bind] in H; try discriminate.
  destruct (build_reply_spec e p (tx_buf_size p) p2 f ob M T R ltac:(lia) BR) as (pay & ss & m & smb & BS & -> & Lf & Hm & ME & SM).
  pose proof (conj ME SM : m = reply_room p /\ smb = reply_smb p) as MS.
  pose proof (after_init_typed p T) as T1.
  destruct (build_switch_ok e _ smb m _ _ _ _ T1 R Hm BS) as (NT & T2 & _ & BRel & _).
  destruct (reply_body_facts e p pay ss m smb p2 ob T R Hm BS SM) as (Bb & B0 & B1 & Bl & B4 & MC & MC2).
  clear ME SM.
  set (b := reply_body p pay ss) in *.
  assert (HMk : mk_of p2 = mk_of p /\ pd_mode (fl p2) = true).
  { destruct BRel as [->|[(_ & a & c & _ & ->)|[(_ & fx & ->)|[(_ & ->)|[(_ & _ & ->)|(_ & _ & ->)]]]]]; split; auto. }
  destruct HMk as [HMk HP2].
  unfold send_packet in H. rewrite <- HMk in H.
  pose proof (finalize_reply p p2 b T2 HMk HP2 N Bb B0 Bl MC2) as FIN.
  destruct FIN as (q1 & fo & F0 & F1 & F2 & F3). rewrite F0 in H. cbn [bind] in H.
  set (f := mk_of p ++ wire_of p2 b) in *.
  destruct F3 as [[-> F3]|(-> & F3 & F4)].
  - cbn [bind] in H. inv H. exists p2, pay, ss, m, smb, ob, [].
    repeat (split; [assumption || reflexivity|]). fold b. left. auto.
  - assert (NE : f <> []).
    { unfold f. intros E. apply (f_equal zlen) in E. rewrite zlen_app in E. unfold wire_of in E.
      pose proof (zlen_nonneg (mk_of p)). change (zlen (@nil Z)) with 0 in E.
      destruct (macced p2 b); rewrite zlen_with_crc in E; revert E;
        [pose proof (zlen_nonneg (put_len (zlen (sealed_body p2 b) + 6) (sealed_body p2 b) ++ firstn 4 (sealed_mac p2 b)))
        |pose proof (zlen_nonneg (put_len (zlen b + 2) b))]; lia. }
    pose proof (channel_sent e f NE) as CS. cbv zeta in CS, H.
    set (tx := if channel_send e f =? 0 then [] else [OTx (firstn (Z.to_nat (channel_send e f)) f)]) in *.
    cbn [bind] in H. inv H. exists p2, pay, ss, m, smb, ob, tx.
    repeat (split; [assumption || reflexivity|]). fold b f. right. auto.
Qed.

(* whether a reply goes wrong is decided by its payload alone *)
Lemma send_reply_total e p x : pd_mode (fl p) = true -> pd_typed p -> bytes (e_rand e) -> 69 <= tx_buf_size p <= 256 ->
  build_switch e (after_init p) (reply_smb p) (reply_room p) = Ok x -> exists y, send_reply e p = Ok y.
Proof.
  intros M T R N BS. unfold send_reply. cbv zeta. rewrite packet_init_pd by auto.
  destruct (tx_buf_size p <? 69) eqn:E69; [lia|]. fold (after_init p).
  assert (RM : 60 <= reply_room p).
  { unfold reply_room. pose proof (pd_hdr_len p). pose proof (mk_of_len p). unfold zlen. rewrite app_length. lia. }
  assert (BR : exists p2 f ob, build_reply e (after_init p) (mk_of p ++ pd_hdr p) (tx_buf_size p) = Ok (p2, f, ob)).
  { unfold build_reply. unfold data_offset, smb_pos. change (mark_len (after_init p)) with (mark_len p).
    set (off := mark_len p + 5 + _). cbv zeta.
    set (smb := if ctl_scb _ then Some (mark_len p + 5) else None).
    assert (F : off = zlen (mk_of p ++ pd_hdr p) /\
                smb = if sc_active (fl p) || in_sc_handshake true (reply_id p) then Some (mark_len p + 5) else None).
    { unfold off, smb, pd_hdr, mk_of, mark_len. fold (pd_addr p) (pd_ctl p).
      destruct (pd_ctl_cases p) as [C _]. simpl in C.
      destruct C as [<-|[<-|[<-|[<-|[]]]]];
      destruct (has_mark (fl p)), (sc_active (fl p)), (in_sc_handshake true (reply_id p)); split; reflexivity. }
    destruct F as [F1 F2]. rewrite F2. rewrite F1. clearbody off smb. clear F2.
    fold (reply_room p). fold (reply_smb p).
    replace (match (if reply_smb p then Some (mark_len p + 5) else None) with Some _ => true | None => false end)
      with (reply_smb p) by (destruct (reply_smb p); reflexivity).
    rewrite BS. cbn [bind]. destruct x as [[[p2 pay] ss] o]. destruct pay as [d|]; [eauto|].
    unfold assert_len. assert (E2 : 2 <? reply_room p = true) by lia. rewrite E2. eauto. }
  destruct BR as (p2 & f & ob & BR). rewrite BR. cbn [bind].
  destruct (build_reply_spec e p (tx_buf_size p) p2 f ob M T R ltac:(lia) BR) as (pay & ss & m & smb & BS2 & -> & Lf & Hm & ME & SM).
  pose proof (after_init_typed p T) as T1.
  destruct (build_switch_ok e _ smb m _ _ _ _ T1 R Hm BS2) as (NT & T2 & _ & BRel & _).
  destruct (reply_body_facts e p pay ss m smb p2 ob T R Hm BS2 SM) as (Bb & B0 & B1 & Bl & B4 & MC & MC2).
  assert (HMk : mk_of p2 = mk_of p /\ pd_mode (fl p2) = true).
  { destruct BRel as [->|[(_ & a & c & _ & ->)|[(_ & fx & ->)|[(_ & ->)|[(_ & _ & ->)|(_ & _ & ->)]]]]]; split; auto. }
  destruct HMk as [HMk HP2]. unfold send_packet. rewrite <- HMk.
  destruct (finalize_reply p p2 (reply_body p pay ss) T2 HMk HP2 ltac:(lia) Bb B0 Bl MC2) as (q1 & fo & F0 & _).
  rewrite F0. cbn [bind]. destruct fo; cbn [bind]; eauto.
Qed.
