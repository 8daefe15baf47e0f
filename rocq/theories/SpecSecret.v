(** What may be read on the line while a secure session is open (C64). *)
From Verif Require Import Base Types SpecCrc SpecRx SpecFrame SpecSec SpecSession.

(* an answer under the keys of session s: block 24 with its data encrypted, or block 22 with a bare reply
   code (or the code of a NAK for "no record") *)
Definition sealed_answer (s : schan) (w : list Z) : Prop :=
  exists a n code data,
    (data <> [] /\ w = secure_frame a n 24 code data (s_enc s) (s_mac1 s) (s_mac2 s) (c_mac s)) \/
    ((data = [] \/ (code = 65 /\ data = [9])) /\ w = secure_frame a n 22 code data (s_enc s) (s_mac1 s) (s_mac2 s) (c_mac s)).

(* a step of a handshake: CCRYPT (serial number, random number, cryptogram) or RMAC_I (the first MAC); within an
   open session the reply code is lost *)
Definition handshake_answer (s : schan) (w : list Z) : Prop :=
  exists a n b c,
    (w = handshake_frame a n 18 b (c ++ client_uid s ++ pd_random s ++ pd_crypt s) /\ (c = [118] \/ c = [])) \/
    (w = handshake_frame a n 20 b (c ++ r_mac s) /\ (c = [120] \/ c = [])).

(* a refusal in clear: a NAK and its reason *)
Definition clear_nak (w : list Z) : Prop := exists a n c, w = plain_frame a n [65; c].
