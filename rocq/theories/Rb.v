(** Receive ring buffer: model of osdp_common.c:129-185 and struct osdp_rb
    (osdp_common.h:367-371). *)
From Verif Require Import Base.

(* osdp_config.h.in OSDP_RX_RB_SIZE = 512, size of the array in struct osdp_rb. *)
Definition RB_SIZE : nat := 512.

(* osdp_common.h:367-371 struct osdp_rb. *)
Record rbuf := mkRb { rb_head : nat; rb_tail : nat; rb_buf : list Z }.

(* zero initialised structure (calloc in osdp_pd.c:1092 / osdp_cp.c:1399). *)
Definition rb_init : rbuf := mkRb 0 0 (zeros RB_SIZE).

(* osdp_common.c:133-135 and 165-167: successor index with wrap around. *)
Definition rb_next (i : nat) : nat := if Nat.leb RB_SIZE (i + 1) then 0%nat else (i + 1)%nat.

(* osdp_common.c:129-143 osdp_rb_push; the boolean is "return value is 0". *)
Definition rb_push (r : rbuf) (b : Z) : rbuf * bool :=
  let next := rb_next (rb_head r) in
  if Nat.eqb next (rb_tail r) then (r, false)
  else (mkRb next (rb_tail r) (upd (rb_head r) b (rb_buf r)), true).

(* osdp_common.c:145-156 osdp_rb_push_buf; returns the number of bytes pushed. *)
Fixpoint rb_push_buf (r : rbuf) (l : list Z) : rbuf * Z :=
  match l with
  | [] => (r, 0)
  | b :: t =>
      let (r1, ok) := rb_push r b in
      if ok then let (r2, n) := rb_push_buf r1 t in (r2, 1 + n) else (r1, 0)
  end.

(* osdp_common.c:158-172 osdp_rb_pop; None is the return value -1. *)
Definition rb_pop (r : rbuf) : rbuf * option Z :=
  if Nat.eqb (rb_head r) (rb_tail r) then (r, None)
  else (mkRb (rb_head r) (rb_next (rb_tail r)) (rb_buf r),
        Some (nth (rb_tail r) (rb_buf r) 0)).

(* osdp_common.c:174-185 osdp_rb_pop_buf; the result list is the bytes stored at buf[0..]. *)
Fixpoint rb_pop_buf (r : rbuf) (max_len : nat) : rbuf * list Z :=
  match max_len with
  | O => (r, [])
  | S n =>
      match rb_pop r with
      | (r1, None) => (r1, [])
      | (r1, Some b) => let (r2, t) := rb_pop_buf r1 n in (r2, b :: t)
      end
  end.
