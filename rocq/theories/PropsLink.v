(** Property theorems C01 - C06: ring buffer, CRC, checksum, cipher, secure data block. *)
From Verif Require Import Base ListLemmas Rb SpecQueue RbProofs Crc SpecCrc CrcProofs CrcBurst
  Aes AesProofs Types Sc ScProofs Phy PhyCheck.

(** C01.  For every list of calls, from every buffer whose indices are in range, the caller sees
    exactly what a bounded queue holding the same unread bytes would show. *)
Theorem C01_fifo : forall (r : rbuf) (calls : list rb_call), rb_wf r ->
  snd (rb_run r calls) = snd (q_run (rb_contents r) calls).
Proof. intros r calls H. exact (rb_fifo calls r H). Qed.
Print Assumptions C01_fifo.

(** C01.  Nothing is lost, duplicated or invented: bytes handed out, followed by the unread ones,
    are the bytes pending at the start followed by the bytes taken in. *)
Theorem C01_conserves : forall (r : rbuf) (calls : list rb_call), rb_wf r ->
  given (snd (rb_run r calls)) ++ rb_contents (fst (rb_run r calls))
  = rb_contents r ++ taken calls (snd (rb_run r calls)).
Proof. intros r calls H. pose proof (rb_conserves calls r H) as X. destruct (rb_run r calls). exact X. Qed.
Print Assumptions C01_conserves.

(** C01.  From the initial buffer no byte is refused while at most 511 bytes are offered in total;
    a push is refused exactly at 511 unread bytes and then changes nothing. *)
Theorem C01_capacity :
  (forall calls, (length (offered calls) <= 511)%nat ->
     taken calls (snd (rb_run rb_init calls)) = offered calls) /\
  (forall r b, rb_wf r ->
     (snd (rb_push r b) = false <-> length (rb_contents r) = 511%nat) /\
     (snd (rb_push r b) = false -> fst (rb_push r b) = r)) /\
  rb_wf rb_init /\ (forall r calls, rb_wf r -> rb_wf (fst (rb_run r calls))).
Proof.
  split; [|split; [|split]].
  - intros calls H. rewrite (rb_fifo calls rb_init rb_init_wf). exact (q_all_taken calls [] H).
  - exact rb_full_refuses.
  - exact rb_init_wf.
  - intros r calls H. exact (proj1 (rb_run_refines calls r H)).
Qed.
Print Assumptions C01_capacity.

(* a run that wraps around the end of the array *)
Example C01_example :
  let calls := [CallPushBuf (zeros 500); CallPopBuf 490; CallPushBuf (map Z.of_nat (seq 0 30));
                CallPop; CallPopBuf 12] in
  snd (rb_run rb_init calls) =
  [SeenAccepted 500; SeenBytes (zeros 490); SeenAccepted 30; SeenBytes [0];
   SeenBytes (zeros 9 ++ [0; 1; 2])].
Proof. vm_compute. reflexivity. Qed.

(** C02.  The CRC of every byte string is the textbook CRC-16 with initial value 0x1D0F. *)
Theorem C02_crc_textbook : forall msg, bytes msg -> compute_crc16 msg = textbook_crc 7439 msg.
Proof. exact compute_crc16_textbook. Qed.
Print Assumptions C02_crc_textbook.

Example C02_example : textbook_crc 7439 [49; 50; 51; 52; 53; 54; 55; 56; 57] = 58828. (* 0xE5CC *)
Proof. vm_compute. reflexivity. Qed.

(** C03 (part that holds).  A change of at most 14 consecutive bits on the line, or of at most 16
    bits inside the covered bytes, or of any kind inside the two CRC bytes, is always detected as
    long as both packets are tested in CRC mode.  The full claim (16 bits anywhere) is false, see
    below. *)
Theorem C03_burst_partial : forall b1 b2 pos len,
  bytes b1 -> bytes b2 -> (2 <= length b1)%nat ->
  ctl_crc (getb b1 4) = true -> ctl_crc (getb b2 4) = true ->
  check_crc b1 <> None -> b1 <> b2 -> burst pos len b1 b2 ->
  (len <= 14 \/ (len <= 16 /\ pos + len <= 8 * (length b1 - 2)) \/ 8 * (length b1 - 2) <= pos)%nat ->
  check_crc b2 = None.
Proof. exact crc_burst_packet. Qed.
Print Assumptions C03_burst_partial.

(* a POLL packet with one byte damaged *)
Example C03_example :
  check_crc [83; 1; 8; 0; 4; 96; 186; 0] = Some 6 /\
  burst 40 8 [83; 1; 8; 0; 4; 96; 186; 0] [83; 1; 8; 0; 4; 97; 186; 0] /\
  check_crc [83; 1; 8; 0; 4; 97; 186; 0] = None.
Proof.
  split; [vm_compute; reflexivity|]. split; [|vm_compute; reflexivity].
  split; [reflexivity|]. intros i H.
  do 40 (destruct i as [|i]; [reflexivity|]). do 8 (destruct i as [|i]; [lia|]).
  do 16 (destruct i as [|i]; [reflexivity|]). destruct i; reflexivity.
Qed.

(** C03 is false as stated: because the CRC travels low byte first, a change of the last covered
    byte and the first CRC byte (two adjacent bytes) can go unnoticed. *)
Theorem C03_two_adjacent_bytes_refuted : exists b1 b2,
  bytes b1 /\ bytes b2 /\ b1 <> b2 /\ length b1 = length b2 /\
  ctl_crc (getb b1 4) = true /\ ctl_crc (getb b2 4) = true /\
  (forall i, (i < 5 \/ 7 <= i)%nat -> nth i b1 0 = nth i b2 0) /\
  check_crc b1 = Some 6 /\ check_crc b2 = Some 6.
Proof.
  exists [83; 1; 8; 0; 4; 96; 186; 0], [83; 1; 8; 0; 4; 233; 27; 0].
  repeat split; try (vm_compute; reflexivity); try discriminate;
    try (repeat (apply Forall_cons || apply Forall_nil); unfold byte; lia).
  intros i H. do 5 (destruct i as [|i]; [reflexivity|]). do 2 (destruct i as [|i]; [lia|]).
  destruct i as [|[|i]]; reflexivity.
Qed.
Print Assumptions C03_two_adjacent_bytes_refuted.

(** C03 is also false for a single bit: flipping the "CRC used" bit of the control byte makes the
    receiver fall back to the 8 bit checksum, which can match by chance. *)
Theorem C03_mode_bit_refuted : exists b1 b2,
  bytes b1 /\ bytes b2 /\ b1 <> b2 /\ burst 34 1 b1 b2 /\
  check_crc b1 <> None /\ check_crc b2 <> None.
Proof.
  exists [83; 1; 9; 0; 4; 96; 99; 148; 76], [83; 1; 9; 0; 0; 96; 99; 148; 76].
  repeat split; try (vm_compute; discriminate); try discriminate;
    try (repeat (apply Forall_cons || apply Forall_nil); unfold byte; lia).
  intros i H. do 34 (destruct i as [|i]; [reflexivity|]). destruct i as [|i]; [lia|].
  do 37 (destruct i as [|i]; [reflexivity|]). destruct i; reflexivity.
Qed.
Print Assumptions C03_mode_bit_refuted.

(** C04.  In checksum mode a packet passes iff its bytes add up to 0 modulo 256; the checksum
    computed by the sender makes it so; one changed byte is always noticed. *)
Theorem C04_checksum :
  (forall b, bytes b -> b <> [] -> ctl_crc (getb b 4) = false -> (check_crc b <> None <-> sum_valid b)) /\
  (forall b, bytes b -> b <> [] -> sum_valid (b ++ [compute_checksum b])) /\
  (forall b1 b2, bytes b1 -> bytes b2 -> ctl_crc (getb b1 4) = false -> ctl_crc (getb b2 4) = false ->
     check_crc b1 <> None -> one_byte_off b1 b2 -> check_crc b2 = None).
Proof.
  split; [|split].
  - intros b B Hne Hc. apply check_crc_sum; auto. destruct b; [congruence|simpl; lia].
  - exact checksum_completes.
  - exact sum_one_off_packet.
Qed.
Print Assumptions C04_checksum.

Example C04_example :
  compute_checksum [83; 1; 7; 0; 0; 96] = 69 /\ check_crc [83; 1; 7; 0; 0; 96; 69] = Some 6 /\
  check_crc [83; 1; 7; 0; 0; 97; 69] = None.
Proof. vm_compute. auto. Qed.

(** C05.  Decryption inverts encryption, for one block and for CBC over any number of blocks. *)
Theorem C05_aes_inverse :
  (forall key block, blk key -> blk block -> aes_ecb_decrypt key (aes_ecb_encrypt key block) = block) /\
  (forall key iv data n, blk key -> blk iv -> bytes data -> length data = (16 * n)%nat ->
     aes_cbc_decrypt key iv (aes_cbc_encrypt key iv data) = data /\
     length (aes_cbc_encrypt key iv data) = length data).
Proof.
  split; [exact ecb_inv|]. intros key iv data n K I B L. split.
  - exact (aes_cbc_inv key iv data n K I B L).
  - exact (proj1 (aes_cbc_ok key iv data n K I B L)).
Qed.
Print Assumptions C05_aes_inverse.

(* FIPS-197 appendix C.1: the modelled cipher is AES *)
Example C05_example :
  aes_ecb_encrypt (map Z.of_nat (seq 0 16))
    [0; 17; 34; 51; 68; 85; 102; 119; 136; 153; 170; 187; 204; 221; 238; 255]
  = [105; 196; 224; 216; 106; 123; 4; 48; 216; 205; 183; 128; 112; 180; 197; 90].
Proof. vm_compute. reflexivity. Qed.

(** C06.  Whatever payload one side encrypts, the other side, with the same session key and
    chaining values, gets back exactly that payload and its length. *)
Theorem C06_data_block : forall is_cmd empty_ok s1 s2 data,
  sc_keys_ok s1 -> s_enc s2 = s_enc s1 -> r_mac s2 = r_mac s1 -> c_mac s2 = c_mac s1 ->
  bytes data ->
  exists d, decrypt_data is_cmd empty_ok s2 (encrypt_data is_cmd s1 data) = Some (d, zlen data) /\
            firstn (length data) d = data.
Proof.
  intros is_cmd empty_ok s1 s2 data H1 H2 H3 H4 H5.
  destruct (decrypt_encrypt is_cmd empty_ok s1 s2 data H1 H2 H3 H4 H5) as (d & A & B & _).
  exists d. exact (conj A B).
Qed.
Print Assumptions C06_data_block.

(* a payload that ends like the padding does *)
Example C06_example :
  let k := map Z.of_nat (seq 0 16) in
  let s := mkSc k k k k k k [] [] [] [] [] in
  let data := [7; 128; 0; 0] in
  decrypt_data true false s (encrypt_data true s data)
  = Some ([7; 128; 0; 0; 0] ++ zeros 11, 4).
Proof. vm_compute. reflexivity. Qed.
