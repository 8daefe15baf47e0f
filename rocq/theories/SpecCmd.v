(** The command set of a peripheral device as tables of numbers (OSDP command codes and data
    lengths), independent of the decoder. *)
From Verif Require Import Base.

(* codes the device knows *)
Definition known_codes : list Z :=
  [96; 97; 98; 100; 101; 102; 103; 104; 105; 106; 107; 110; 117; 118; 119; 123; 124; 128; 162; 167].

(* data lengths that do not fit the code; a text block also holds its own length at offset 5 *)
Definition length_wrong (c : Z) (d : list Z) : Prop :=
  let n := zlen d in
  (In c [96; 100; 101; 102; 103; 162] /\ n <> 0) \/
  (In c [97; 98] /\ n <> 1) \/
  (c = 104 /\ n mod 4 <> 0) \/ (c = 105 /\ n mod 14 <> 0) \/ (c = 106 /\ n mod 5 <> 0) \/
  (c = 107 /\ (n < 6 \/ 32 < nth 5 d 0 \/ n - 6 < nth 5 d 0)) \/
  (c = 110 /\ n <> 5) \/ (c = 128 /\ (n < 4 \/ 68 < n)) \/
  (In c [123; 167] /\ n < 2) \/ (c = 117 /\ n <> 18) \/ (c = 118 /\ n <> 8) \/ (c = 119 /\ n <> 16).

(* codes answered without secure channel by a device that enforces it *)
Definition public_codes : list Z := [97; 98; 118; 119].

(* command codes for which the library has no name in its table (see DESIGN.md, findings) *)
Definition unnamed (c : Z) : Prop :=
  c = 99 \/ 111 <= c <= 114 \/ 120 <= c <= 122 \/ 125 <= c <= 127 \/ 129 <= c <= 160 \/ c = 166.
