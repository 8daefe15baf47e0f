(** What a peripheral device may ask of its application, stated on the command structure, the
    capability table and the numbers of the OSDP command set. *)
From Verif Require Import Base Types.

(* compliance level and number of items of a capability *)
Definition cap_level (caps : list capent) (fc : nat) : Z := c_comp (nth fc caps (mkCap 0 0 0)).
Definition cap_items (caps : list capent) (fc : nat) : Z := c_num (nth fc caps (mkCap 0 0 0)).

(* the declared capabilities cover the command: outputs are function 2, LEDs 4, buzzer 5, text 6,
   contact inputs 1; the other commands need none *)
Definition cap_covers (caps : list capent) (c : cmd) : Prop :=
  match c with
  | COutput no _ _ => cap_level caps 2 <> 0 /\ no < cap_items caps 2
  | CLed _ led _ _ => cap_level caps 4 <> 0 /\ led < cap_items caps 4
  | CBuzzer _ _ _ _ _ => cap_level caps 5 <> 0 /\ cap_items caps 5 <> 0
  | CText _ _ _ _ _ _ _ => cap_level caps 6 <> 0 /\ cap_items caps 6 <> 0
  | CStatus ty _ _ => (ty = 0 -> cap_level caps 1 <> 0 /\ cap_items caps 1 <> 0) /\
                      (ty = 1 -> cap_level caps 2 <> 0 /\ cap_items caps 2 <> 0)
  | _ => True
  end.

(* baud rates of the OSDP specification that the library knows *)
Definition legal_bauds : list Z := [9600; 19200; 38400; 57600; 115200; 230400].

(* the one-byte flags of the first n bits of a mask *)
Definition bit_flags (mask n : Z) : list Z :=
  map (fun i => if Z.testbit mask (Z.of_nat i) then 1 else 0) (seq 0 (Z.to_nat n)).

(* number of bytes that hold n bits *)
Definition bit_bytes (n : Z) : Z := (n + 7) / 8.

(* the report (reply code and data) that announces an event; None: the device has no report for it
   (such an event is dropped and the poll acknowledged) or the status does not fit the number of
   items it declared *)
Definition event_payload (caps : list capent) (ev : event) : option (list Z) :=
  match ev with
  | ECard reader fmt _ n data =>
      if (fmt =? 0) || (fmt =? 1)
      then Some ([80; reader mod 256; fmt; n mod 256; n / 256 mod 256] ++ firstn (Z.to_nat (bit_bytes n)) data)
      else None
  | EKey reader n data => Some ([83; reader mod 256; n mod 256] ++ firstn (Z.to_nat n) data)
  | EMfgrep v c n data => Some ([144; v mod 256; v / 256 mod 256; v / 65536 mod 256; c mod 256] ++ firstn (Z.to_nat n) data)
  | EStatus ty n m =>
      if ty =? 0 then (if n =? cap_items caps 1 then Some (73 :: bit_flags m n) else None)
      else if ty =? 1 then (if n =? cap_items caps 2 then Some (74 :: bit_flags m n) else None)
      else if ty =? 2 then Some (72 :: bit_flags m 2)
      else if ty =? 3 then Some (75 :: bit_flags m 1)
      else None
  | _ => None
  end.

(* the lengths of an event agree with its arrays; at most 32 status items *)
Definition event_fits (ev : event) : Prop :=
  match ev with
  | ECard _ _ _ n data => 0 <= n /\ bit_bytes n <= zlen data
  | EKey _ n data | EMfgrep _ _ n data => 0 <= n <= zlen data
  | EStatus _ n _ => n <= 32
  | _ => True
  end.

(* the identification report *)
Definition le_bytes (n : nat) (x : Z) : list Z := map (fun i => x / 2 ^ (8 * Z.of_nat i) mod 256) (seq 0 n).
Definition id_payload (i : pdid) : list Z :=
  [69] ++ le_bytes 3 (id_vendor i) ++ le_bytes 1 (id_model i) ++ le_bytes 1 (id_version i) ++
  le_bytes 4 (id_serial i) ++ rev (le_bytes 3 (id_fw i)).

(* the capability report: function code, compliance level and number of items of every function the
   device declared, in increasing order of the function code *)
Definition cap_payload (caps : list capent) : list Z :=
  70 :: flat_map (fun c => [c_fc c; c_comp c; c_num c])
          (map snd (filter (fun x => c_fc (snd x) =? fst x) (map (fun i => (Z.of_nat i, nth i caps (mkCap 0 0 0))) (seq 1 16)))).

(* commands of records: the calls made, in order; it stops at the first record that the capabilities
   do not cover and after the first that the application refuses; n counts calls *)
Definition rec_covered (caps : list capent) (c : cmd) : bool :=
  match c with
  | COutput no _ _ => negb (cap_level caps 2 =? 0) && (no <? cap_items caps 2)
  | CLed _ led _ _ => negb (cap_level caps 4 =? 0) && (led <? cap_items caps 4)
  | CBuzzer _ _ _ _ _ => negb (cap_level caps 5 =? 0) && negb (cap_items caps 5 =? 0)
  | _ => false
  end.
Fixpoint record_calls (cb : nat -> cmd -> Z * cmd) (caps : list capent) (n : nat) (l : list cmd) : list cmd :=
  match l with
  | [] => []
  | c :: t => if rec_covered caps c
              then c :: (if fst (cb n c) =? 0 then record_calls cb caps (S n) t else [])
              else []
  end.

(* the records of the data of OUT (4 bytes each), LED (14) and BUZ (5) *)
Definition n16 (a b : Z) : Z := a + 256 * b.
Fixpoint out_records (d : list Z) : list cmd :=
  match d with
  | no :: code :: t0 :: t1 :: r => COutput no code (n16 t0 t1) :: out_records r
  | _ => []
  end.
Fixpoint led_records (d : list Z) : list cmd :=
  match d with
  | rd :: led :: tc :: ton :: toff :: tonc :: toffc :: t0 :: t1 :: pc :: pon :: poff :: ponc :: poffc :: r =>
      CLed rd led (mkLedp tc ton toff tonc toffc (n16 t0 t1)) (mkLedp pc pon poff ponc poffc 0) :: led_records r
  | _ => []
  end.
Fixpoint buz_records (d : list Z) : list cmd :=
  match d with
  | rd :: tone :: on :: off :: rep :: r => CBuzzer rd tone on off rep :: buz_records r
  | _ => []
  end.
