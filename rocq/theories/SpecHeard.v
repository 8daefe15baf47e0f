(** The commands that a received message asks a device to carry out (C71). *)
From Verif Require Import Base Types SpecRx SpecFrame SpecSec SpecReply.

(* the calls of the application's command callback among the effects of a call, in order *)
Fixpoint asked (o : list out) : list cmd :=
  match o with [] => [] | OCmd c :: t => c :: asked t | _ :: t => asked t end.

(* one record of an output, LED and buzzer command *)
Inductive rec_out : list Z -> cmd -> Prop :=
| RO no code t0 t1 : rec_out [no; code; t0; t1] (COutput no code (t0 + 256 * t1)).
Inductive rec_led : list Z -> cmd -> Prop :=
| RL rd led c on off onc offc t0 t1 pc pon poff ponc poffc :
    rec_led [rd; led; c; on; off; onc; offc; t0; t1; pc; pon; poff; ponc; poffc]
      (CLed rd led (mkLedp c on off onc offc (t0 + 256 * t1)) (mkLedp pc pon poff ponc poffc 0)).
Inductive rec_buz : list Z -> cmd -> Prop :=
| RB rd c on off n : rec_buz [rd; c; on; off; n] (CBuzzer rd c on off n).

(* payload l (code and data) asks for the commands cs, in this order; the flags of a file transfer are not part of the
   message *)
Inductive asks : list Z -> list cmd -> Prop :=
| As_lstat : asks [100] [CStatus 2 0 0]
| As_istat : asks [101] [CStatus 0 0 0]
| As_ostat : asks [102] [CStatus 1 0 0]
| As_rstat : asks [103] [CStatus 3 0 0]
| As_out rs cs : Forall2 rec_out rs cs -> asks (104 :: concat rs) cs
| As_led rs cs : Forall2 rec_led rs cs -> asks (105 :: concat rs) cs
| As_buz rs cs : Forall2 rec_buz rs cs -> asks (106 :: concat rs) cs
| As_text rd c t row col n s more : zlen s = n -> n <= 32 ->
    asks (107 :: rd :: c :: t :: row :: col :: n :: s ++ more) [CText rd c t row col n s]
| As_comset a b0 b1 b2 b3 : a < 127 ->
    asks [110; a; b0; b1; b2; b3] [CComset a (b0 + 256 * b1 + 65536 * b2 + 16777216 * b3)]
| As_mfg v0 v1 v2 c s : zlen s <= 64 ->
    asks (128 :: v0 :: v1 :: v2 :: c :: s) [CMfg (v0 + 256 * v1 + 65536 * v2) c (zlen s) s]
| As_keyset k : zlen k = 16 -> asks (117 :: 1 :: 16 :: k) [CKeyset 1 16 k]
| As_file id d flags : asks (124 :: id :: d) [CFileTx id flags].
