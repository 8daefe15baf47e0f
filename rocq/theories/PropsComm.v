(** When a panel changes the address and the baud rate that it uses for a device. *)
From Verif Require Import Base ListLemmas Crc SpecCrc Aes Rb RbProofs Types Sc Phy File Pd Cp CpCtx SpecRx SpecFrame SpecSec SpecReply SpecAuth PdReply PdStep
  SpecPd SpecCp SpecCpRun CpStep CpInv CpSum CpHist CpTime CpReply ExPd ExCp CommCp.
From Coq Require Import ZifyBool ZifyNat.
Local Opaque RB_SIZE.

(** C73 (part that holds).  Address and baud rate of an entry change only in a refresh, and only when an intact reply from
    this device arrived (inside a session: an authentic one, see C52 for the exceptions) that is a COM reply with exactly
    the new values. *)
Theorem C73_changed_partial : forall k n i h p c q o,
  cp_runs k n i h p -> cp_call_typed c -> cp_do c p = Ok (q, o) -> (address q <> address p \/ baud q <> baud p) ->
  exists e l b0 b1 b2 b3, c = Update e /\ heard_reply e p l /\ l = [84; address q; b0; b1; b2; b3] /\
    baud q = b0 + 256 * b1 + 65536 * b2 + 16777216 * b3.
Proof.
  intros k n i h p c q o R T D N.
  destruct (call_comm k n i h p c q o R T D) as (e & l & E & H & b0 & b1 & b2 & b3 & H1 & H2).
  { unfold comm. intros X. injection X as X Y. destruct N; auto. }
  exists e, l, b0, b1, b2, b3. exact (conj E (conj H (conj H1 H2))).
Qed.
Print Assumptions C73_changed_partial.

(* a COMSET of the application: from the next packet on the panel uses the new address *)
Example C73_example :
  let r := crun (ex_cp false false) (Send (ex_env 1150 []) (CComset 9 57600) :: exch 1200 [reply 2 [84; 9; 0; 225; 0; 0]] ++ exch 1300 []) in
  address (ex_cp false false) = 101 /\ address (state_of r) = 9 /\ baud (state_of r) = 57600 /\
  outs_of r = [OTx [255; 83; 101; 13; 0; 6; 110; 9; 0; 225; 0; 0; 169; 215]; OTx [255; 83; 9; 8; 0; 7; 96; 196; 87]].
Proof. vm_compute. auto. Qed.

(** C73 is false: no COMSET was sent.  A device answers a poll with COM; the panel takes it offline, and from then on
    looks for it at the address in that reply. *)
Theorem C73_unasked_refuted : exists p cs q o w,
  cp_reach p /\ Forall cp_call_typed cs /\ crun p cs = Ok (q, o) /\ address p = 101 /\
  cs = exch 1200 [reply 2 [84; 7; 0; 225; 0; 0]] ++ [Update (ex_env 301300 []); Update (ex_env 301400 []); Update (ex_env 301500 [])] /\
  o = [OTx [255; 83; 101; 8; 0; 6; 96; 2; 246]; OTx ([255; 83; 7] ++ w)] /\ baud q = 57600.
Proof.
  exists (ex_cp false false). do 3 eexists. exists [9; 0; 4; 97; 0; 129; 174]. split; [|split; [|split; [|split; [reflexivity|split; [reflexivity|split]]]]].
  - ex_crun.
  - ex_ccalls.
  - apply (ExCp.ok_eq (crun _ _)); vm_compute; reflexivity.
  - vm_compute. reflexivity.
  - vm_compute. reflexivity.
Qed.
Print Assumptions C73_unasked_refuted.
