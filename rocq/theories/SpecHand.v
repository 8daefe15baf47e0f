(** What the theorem about the secure channel handshake speaks of. *)
From Verif Require Import Base Rb RbProofs Types Phy Pd Cp CpCtx SpecRx SpecFrame SpecPd SpecCp SpecLink.

(* a call that sends nothing, and then K; a call that sends exactly w, and then K *)
Definition moves (r : res (pd * list out)) (K : pd -> Prop) : Prop := exists q, r = Ok (q, []) /\ K q.
Definition says (r : res (pd * list out)) (K : pd -> list Z -> Prop) : Prop := exists q w, r = Ok (q, [OTx w]) /\ K q w.

(* a refresh during which all of w arrives, possibly after noise without start byte; the line takes 256 bytes *)
Definition hears (e : env) (w : list Z) : Prop :=
  env_typed e /\ call_typed (Refresh e) /\ chunk_ok e /\ 256 <= e_tx e /\ delivers (heard (e_rx e)) w [].

(* the base key in use: SCBK, or SCBK-D, which is 0x30 ... 0x3F *)
Definition base_key (default : bool) (scbk : list Z) : list Z :=
  if default then [48; 49; 50; 51; 52; 53; 54; 55; 56; 57; 58; 59; 60; 61; 62; 63] else scbk.

(* panel c is about to ask for a secure channel; device p may have one and expects the number; they
   hold the same base key.  A device in install mode follows a panel that uses SCBK-D. *)
Record may_shake (c p : pd) : Prop := {
  ms_reach : cp_reach c /\ pd_reach p;
  ms_state : state c = SChlng /\ phy_state c = PIdle /\ rq_offline c = false;
  ms_quiet : rb_contents (rb c) = [] /\ quiet p;
  ms_addr : address p = address c /\ 0 <= address c < 127;
  ms_seq : seq_ok (seqn p) (seq_next (seqn c));
  ms_room : 69 <= tx_buf_size c /\ 69 <= tx_buf_size p;
  ms_able : sc_is_capable p = true /\ cap_sc p = true;
  ms_key : base_key (use_scbkd (fl c)) (scbk (sc c)) =
           base_key (use_scbkd (fl p) || (install (fl p) && use_scbkd (fl c))) (scbk (sc p))
}.
