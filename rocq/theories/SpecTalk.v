(** What the theorems about commands, events and identification of a panel and a device on one line
    speak of. *)
From Verif Require Import Base Rb RbProofs Types Phy Pd Cp CpCtx SpecRx SpecFrame SpecPd SpecCp SpecLink SpecApp.

(* panel c and device p are the ends of a line; they are both outside a session and the device accepts
   the next number, or they are in step inside one.  line: before a command; line_reply: between command
   and reply *)
Definition line (c p : pd) : Prop :=
  ends c p /\ ((sc_active (fl c) = false /\ sc_active (fl p) = false /\ -1 <= seqn c <= 3 /\ -1 <= seqn p <= 3 /\ seq_ok (seqn p) (seq_next (seqn c))) \/ in_step c p).
Definition line_reply (c p : pd) : Prop :=
  ends c p /\ ((sc_active (fl c) = false /\ sc_active (fl p) = false /\ 0 <= seqn c <= 3 /\ seqn p = seqn c) \/ (in_step_reply c p /\ 1 <= seqn p)).

(* the packet with payload d fits n bytes *)
Definition fits (n : Z) (act : bool) (d : list Z) : Prop :=
  bytes d /\ 1 <= zlen d /\ 69 <= n <= 256 /\ if act then 15 + (if zlen d >? 1 then 16 * ((zlen d + 15) / 16) else 0) <= n else zlen d + 8 <= n.

(* the device's session, if any, has not timed out *)
Definition in_session (e : env) (p : pd) : Prop := sc_active (fl p) = true -> e_now e - sc_tstamp p <= 8000.

(* --- identification --- *)

(* the identity in the widths it has on the line: vendor and firmware 24 bit, serial 32 bit *)
Definition id_wire (i : pdid) : pdid :=
  mkId (id_version i mod 256) (id_model i mod 256) (id_vendor i mod 2 ^ 24) (id_serial i mod 2 ^ 32) (id_fw i mod 2 ^ 24).

(* function fc is declared in the table *)
Definition declared (caps : list capent) (fc : nat) : Prop := c_fc (nth fc caps (mkCap 0 0 0)) = Z.of_nat fc.

(* all capability entries a device was given, in order: those of its setup, the ones that every device
   has (8: CRC; 9: secure channel; 10: receive size 256; 16: version), those set later.  A list ends at
   the first code outside 1 .. 16. *)
Fixpoint listed_caps (l : list capent) : list capent :=
  match l with
  | c :: t => if (0 <? c_fc c) && (c_fc c <? 17) then c :: listed_caps t else []
  | [] => []
  end.
Definition given_caps (i : pdinfo) (h : list entry) : list capent :=
  listed_caps (i_cap i) ++ [mkCap 8 1 0; mkCap 9 1 0; mkCap 10 0 1; mkCap 16 2 0] ++
  flat_map (fun en => match en_call en with SetCaps l => listed_caps l | _ => [] end) (rev h).
(* the entry that counts for fc: the last one *)
Definition last_cap (l : list capent) (fc : Z) : option capent := find (fun c => c_fc c =? fc) (rev l).

(* panel c and device p are connected, nothing under way *)
Record connected (c p : pd) : Prop := {
  cn_reach : cp_reach c;
  cn_idle : phy_state c = PIdle;
  cn_line : line c p;
  cn_quiet : quiet c /\ quiet p;
  cn_size : 69 <= tx_buf_size c /\ 69 <= tx_buf_size p
}.

(* --- commands --- *)

(* what counts of a command: not the timer of a permanent LED setting, not the bytes of an array beyond
   the length, not the report fields of a status query *)
Definition upto (k : cmd) : cmd :=
  match k with
  | CLed r n t m => CLed r n t (mkLedp (lp_control m) (lp_on m) (lp_off m) (lp_on_color m) (lp_off_color m) 0)
  | CText r cc tmp row col n data => CText r cc tmp row col n (firstn (Z.to_nat n) data)
  | CMfg v m n data => CMfg v m n (firstn (Z.to_nat n) data)
  | CKeyset ty n data => CKeyset ty n (firstn (Z.to_nat n) data)
  | CStatus ty _ _ => CStatus ty 0 0
  | _ => k
  end.

(* the fields are in their documented ranges (osdp.h: one byte each unless stated) *)
Definition led_in_range (t : ledp) : Prop :=
  byte (lp_control t) /\ byte (lp_on t) /\ byte (lp_off t) /\ byte (lp_on_color t) /\ byte (lp_off_color t) /\ 0 <= lp_timer t < 2 ^ 16.
Definition cmd_in_range (k : cmd) : Prop :=
  match k with
  | COutput no cc t => byte no /\ byte cc /\ 0 <= t < 2 ^ 16
  | CLed r n t m => byte r /\ byte n /\ led_in_range t /\ led_in_range m
  | CBuzzer r cc on off rep => byte r /\ byte cc /\ byte on /\ byte off /\ byte rep
  | CText r cc tmp row col n data => byte r /\ byte cc /\ byte tmp /\ byte row /\ byte col /\ 0 <= n <= 32 /\ n <= zlen data /\ bytes data
  | CComset a b => 0 <= a < 127 /\ In b legal_bauds
  | CMfg v m n data => 0 <= v < 2 ^ 24 /\ byte m /\ 0 <= n <= 64 /\ n <= zlen data /\ bytes data
  | CKeyset ty n data => ty = 1 /\ n = 16 /\ 16 <= zlen data /\ bytes data
  | CStatus ty _ _ => 0 <= ty <= 3
  | CFileTx _ _ | COther _ => False
  end.

(* the application of the device answers the call for k with a structure of the same kind, if it accepts:
   at most 32 status items, 16 bytes of key *)
Definition answers_in_kind (k : cmd) (a : Z * cmd) : Prop :=
  fst a = 0 ->
  match k, snd a with
  | CStatus _ _ _, CStatus _ n _ => n <= 32
  | CComset _ _, CComset _ _ => True
  | CKeyset _ _ _, CKeyset _ _ key => 16 <= zlen key
  | CStatus _ _ _, _ | CComset _ _, _ | CKeyset _ _ _, _ => False
  | _, _ => True
  end.

(* calls of the application of the device *)
Definition app_calls (o : list out) : list cmd := flat_map (fun x => match x with OCmd c => [c] | _ => [] end) o.

(* --- events --- *)

(* what counts of an event: not the bytes of an array beyond the length; the direction of a card read
   does not travel *)
Definition upto_ev (ev : event) : event :=
  match ev with
  | ECard r fmt _ n data => ECard r fmt 0 n (firstn (Z.to_nat (bit_bytes n)) data)
  | EKey r n data => EKey r n (firstn (Z.to_nat n) data)
  | EMfgrep v c n data => EMfgrep v c n (firstn (Z.to_nat n) data)
  | _ => ev
  end.

(* documented ranges; status masks have one bit per item *)
Definition ev_in_range (ev : event) : Prop :=
  match ev with
  | ECard r fmt _ n data => byte r /\ (fmt = 0 \/ fmt = 1) /\ 0 <= n <= 512 /\ bit_bytes n <= zlen data /\ bytes data
  | EKey r n data => byte r /\ 0 <= n <= 64 /\ n <= zlen data /\ bytes data
  | EMfgrep v c n data => 0 <= v < 2 ^ 24 /\ byte c /\ 0 <= n <= 128 /\ n <= zlen data /\ bytes data
  | EStatus ty n m => 0 <= ty <= 3 /\ (ty = 2 -> n = 2) /\ (ty = 3 -> n = 1) /\ 0 <= n <= 32 /\ 0 <= m < 2 ^ n
  | _ => False
  end.

(* the panel knows the number of items of the device for a report of contacts (1) or outputs (2) *)
Definition items_known (caps : list capent) (ev : event) : Prop :=
  match ev with
  | EStatus ty n _ => (ty = 0 -> cap_items caps 1 = n) /\ (ty = 1 -> cap_items caps 2 = n)
  | _ => True
  end.

(* no file transfer is under way *)
Definition no_transfer (p : pd) : Prop :=
  match file p with Some f => f_state f = FIdle \/ f_state f = FDone | None => True end.
