(** PD: what the packet layer makes of a frame, and which fields it can touch. *)
From Verif Require Import Base ListLemmas Crc SpecCrc CrcProofs CrcBurst Aes Rb RbProofs Types Sc Phy
  PhyCheck SpecRx SpecFrame RxProofs Pd.
From Coq Require Import ZifyBool ZifyNat.
Ltac Zify.zify_post_hook ::= Z.div_mod_to_equations.

Ltac dmatch_in H :=
  match type of H with
  | context [match ?x with _ => _ end] =>
      lazymatch x with
      | context [match _ with _ => _ end] => fail
      | _ => destruct x eqn:?
      end
  end.

Lemma f_crc_ctl b : f_crc b = ctl_crc (getb b 4).
Proof. unfold f_crc, ctl_crc, getb. rewrite testbit_div by lia. reflexivity. Qed.

Lemma f_scb_ctl b : f_scb b = ctl_scb (getb b 4).
Proof. unfold f_scb, ctl_scb, getb. rewrite testbit_div by lia. reflexivity. Qed.

Lemma f_seq_ctl b : f_seq b = ctl_seq (getb b 4).
Proof. unfold f_seq, ctl_seq, getb. change 3 with (Z.ones 2). rewrite Z.land_ones by lia. reflexivity. Qed.

Lemma f_addr_ctl b : f_addr b = Z.land (getb b 1) 127.
Proof. unfold f_addr, getb. change 127 with (Z.ones 7). rewrite Z.land_ones by lia. reflexivity. Qed.

Lemma f_seq_range b : 0 <= f_seq b < 4.
Proof. unfold f_seq. lia. Qed.

Definition trailer_len (b : list Z) : Z := if f_crc b then 2 else 1.

Lemma check_crc_intact b : bytes b -> 6 <= zlen b ->
  match check_crc b with
  | Some n => f_intact b /\ n = zlen b - trailer_len b
  | None => ~ f_intact b
  end.
Proof.
  intros B L. unfold f_intact, trailer_len. rewrite f_crc_ctl.
  destruct (ctl_crc (getb b 4)) eqn:E.
  - pose proof (check_crc_crc b B ltac:(unfold zlen in L; lia) E) as X.
    destruct (check_crc b) as [n|] eqn:C.
    + split; [apply X; congruence|]. unfold check_crc in C. rewrite E in C. cbv zeta in C.
      destruct (_ =? _); congruence.
    + intros V. apply X in V. auto.
  - pose proof (check_crc_sum b B ltac:(unfold zlen in L; lia) E) as X.
    destruct (check_crc b) as [n|] eqn:C.
    + split; [apply X; congruence|]. unfold check_crc in C. rewrite E in C. cbv zeta in C.
      destruct (_ =? _); congruence.
    + intros V. apply X in V. auto.
Qed.

(* the counter after a frame with number s, whether or not it is accepted *)
Definition seq_after (last s : Z) : Z :=
  if s =? 0 then 0 else if s =? last then last else seq_next last.

(* PD state after an intact frame for it, before the sequence verdict *)
Definition pd_seen (b : list Z) (p : pd) : pd :=
  let p1 := if f_seq b =? 0 then sc_deactivate p else p in
  let p2 := if f_addr b =? 127 then set_broadcast true p1 else p1 in
  set_seqn (seq_after (seqn p) (f_seq b)) p2.

Lemma pd_frame p b : pd_mode (fl p) = true -> skip_seq (fl p) = false -> -1 <= seqn p <= 3 ->
  bytes b -> 6 <= zlen b ->
  (~ f_intact b /\ check_packet_bytes p b = (p, KFmt)) \/
  (f_intact b /\ ~ f_mine (address p) b /\ check_packet_bytes p b = (p, KSkip)) \/
  (f_intact b /\ f_mine (address p) b /\ seq_ok (seqn p) (f_seq b) /\
     check_packet_bytes p b = (pd_seen b p, KNone)) \/
  (f_intact b /\ f_mine (address p) b /\ ~ seq_ok (seqn p) (f_seq b) /\
     check_packet_bytes p b = (nak 4 (pd_seen b p), KNack)).
Proof.
  intros M SK R B L. unfold check_packet_bytes.
  pose proof (check_crc_intact b B L) as X.
  destruct (check_crc b) as [n|]; [|left; auto]. destruct X as [I _]. right.
  cbv zeta. rewrite <- f_addr_ctl, <- f_seq_ctl, M.
  unfold f_mine. set (a := f_addr b) in *.
  destruct (negb (a =? address p) && negb (a =? 127)) eqn:Ea.
  { left. split; auto. split; [lia|auto]. }
  right.
  pose proof (f_seq_range b) as Rs. set (s := f_seq b) in *.
  assert (Mine : a = address p \/ a = 127) by lia.
  set (p1 := if s =? 0 then sc_deactivate (set_seqn (-1) p)
             else if s =? seqn p then set_seqn (seqn p - 1) p else p).
  set (p2 := if a =? 127 then set_broadcast true p1 else p1).
  assert (M2 : pd_mode (fl p2) = true).
  { unfold p2, p1. destruct (a =? 127), (s =? 0), (s =? seqn p); exact M. }
  assert (S2 : seqn p2 = if s =? 0 then -1 else if s =? seqn p then seqn p - 1 else seqn p).
  { unfold p2, p1. destruct (a =? 127), (s =? 0), (s =? seqn p); reflexivity. }
  rewrite M2. unfold get_seq. cbn [fst snd].
  set (c := if 3 <? seqn p2 + 1 then 1 else seqn p2 + 1).
  assert (Hc : c = seq_after (seqn p) s).
  { unfold c, seq_after, seq_next. rewrite S2.
    destruct (s =? 0) eqn:E0; [reflexivity|].
    destruct (s =? seqn p) eqn:E1; [destruct (3 <? seqn p - 1 + 1) eqn:E2; lia|].
    destruct (3 <? seqn p + 1) eqn:E2, (seqn p =? 3) eqn:E3; lia. }
  assert (Hp : set_seqn c p2 = pd_seen b p).
  { unfold pd_seen. fold s a. rewrite Hc. unfold p2, p1.
    destruct (a =? 127), (s =? 0), (s =? seqn p); reflexivity. }
  assert (Hs : skip_seq (fl (set_seqn c p2)) = false).
  { unfold p2, p1. destruct (a =? 127), (s =? 0), (s =? seqn p); exact SK. }
  rewrite Hs, Hp. rewrite andb_true_r.
  assert (Rc : 0 <= c < 4).
  { rewrite Hc. unfold seq_after, seq_next. destruct (s =? 0) eqn:E0, (s =? seqn p) eqn:E1, (seqn p =? 3) eqn:E2; lia. }
  assert (Hl : Z.land c 3 = c).
  { change 3 with (Z.ones 2). rewrite Z.land_ones by lia. apply Z.mod_small. lia. }
  rewrite Hl.
  assert (Hok : c = s <-> seq_ok (seqn p) s).
  { rewrite Hc. unfold seq_after, seq_ok. destruct (s =? 0) eqn:E0; [lia|].
    destruct (s =? seqn p) eqn:E1; [lia|]. split; [auto|]. intros [|[|]]; lia. }
  destruct (c =? s) eqn:E; cbn [negb].
  - left. split; auto. split; auto. split; auto. apply Hok; lia.
  - right. split; auto. split; auto. split; auto. intros V. apply Hok in V. lia.
Qed.
