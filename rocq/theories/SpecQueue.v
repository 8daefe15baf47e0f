(** Independent specification for C01: a bounded first-in first-out queue on plain lists and the
    language of calls made on a ring buffer.  Mentions no model definition. *)
From Verif Require Import Base.

Inductive rb_call :=
| CallPush (b : Z)            (* push one byte *)
| CallPushBuf (l : list Z)    (* push a block *)
| CallPop                     (* pop one byte *)
| CallPopBuf (n : nat).       (* pop up to n bytes *)

(* what the caller sees *)
Inductive rb_seen :=
| SeenAccepted (n : Z)        (* number of bytes taken in *)
| SeenBytes (l : list Z).     (* the bytes handed out *)

(* capacity: one slot of the 512 byte array always stays free *)
Definition q_cap : nat := 511.

Definition q_in (q l : list Z) : list Z := firstn (q_cap - length q) l.

Definition q_call (q : list Z) (c : rb_call) : list Z * rb_seen :=
  match c with
  | CallPush b => (q ++ q_in q [b], SeenAccepted (zlen (q_in q [b])))
  | CallPushBuf l => (q ++ q_in q l, SeenAccepted (zlen (q_in q l)))
  | CallPop => (skipn 1 q, SeenBytes (firstn 1 q))
  | CallPopBuf n => (skipn n q, SeenBytes (firstn n q))
  end.

Fixpoint q_run (q : list Z) (cs : list rb_call) : list Z * list rb_seen :=
  match cs with
  | [] => (q, [])
  | c :: t => let (q1, s) := q_call q c in let (q2, ss) := q_run q1 t in (q2, s :: ss)
  end.

(* the bytes of the calls that were taken in, according to the reported counts *)
Fixpoint taken (cs : list rb_call) (ss : list rb_seen) : list Z :=
  match cs, ss with
  | CallPush b :: ct, SeenAccepted n :: st => firstn (Z.to_nat n) [b] ++ taken ct st
  | CallPushBuf l :: ct, SeenAccepted n :: st => firstn (Z.to_nat n) l ++ taken ct st
  | _ :: ct, _ :: st => taken ct st
  | _, _ => []
  end.

(* the bytes handed out *)
Fixpoint given (ss : list rb_seen) : list Z :=
  match ss with
  | [] => []
  | SeenBytes l :: st => l ++ given st
  | _ :: st => given st
  end.

(* number of bytes offered by a list of calls *)
Fixpoint offered (cs : list rb_call) : list Z :=
  match cs with
  | [] => []
  | CallPush b :: t => b :: offered t
  | CallPushBuf l :: t => l ++ offered t
  | _ :: t => offered t
  end.
