(** Generic helpers of the model: byte strings, fixed-width integers and the
    outcome type.  Nothing here models one particular C function; each helper
    says which C construct it stands for. *)
From Coq Require Export List ZArith Lia Bool.
Export ListNotations.
Open Scope Z_scope.

(* C: a value of type uint8_t (used throughout /repo/src, e.g. osdp_common.h:62-65). *)
Definition byte (b : Z) : Prop := 0 <= b < 256.

(* C: an array of uint8_t, e.g. osdp_common.h:409 [packet_buf]. *)
Definition bytes (l : list Z) : Prop := Forall byte l.

(* C: `int len` that accompanies every buffer (e.g. osdp_phy.c:195). *)
Definition zlen {A} (l : list A) : Z := Z.of_nat (length l).

(* C: conversion to uint8_t / uint16_t / uint32_t (wrap around), osdp_common.h:62-65. *)
Definition u8  (x : Z) : Z := x mod 256.
Definition u16 (x : Z) : Z := x mod 65536.
Definition u32 (x : Z) : Z := x mod 4294967296.

(* osdp_common.h:62-65, macros BYTE_0 .. BYTE_3. *)
Definition byte0 (x : Z) : Z := x mod 256.
Definition byte1 (x : Z) : Z := (x / 256) mod 256.
Definition byte2 (x : Z) : Z := (x / 65536) mod 256.
Definition byte3 (x : Z) : Z := (x / 16777216) mod 256.

(* C: buf[i] for reading; 0 stands for "outside the list" and is only used where the index is
   inside (the 256 byte packet buffer or a list whose length was tested). *)
Definition getb (l : list Z) (i : Z) : Z := nth (Z.to_nat i) l 0.

(* C: the bytes buf[off] .. buf[off+n-1] (memcpy source / pointer arithmetic buf + off). *)
Definition sub {A} (l : list A) (off n : Z) : list A :=
  firstn (Z.to_nat n) (skipn (Z.to_nat off) l).

(* C: buf + off, the rest of a buffer from offset off. *)
Definition from {A} (l : list A) (off : Z) : list A := skipn (Z.to_nat off) l.

(* C: a[i] = v. *)
Fixpoint upd {A} (i : nat) (v : A) (l : list A) : list A :=
  match l, i with
  | [], _ => []
  | _ :: t, O => v :: t
  | h :: t, S j => h :: upd j v t
  end.

(* C: memcpy(dst + off, src, len(src)) inside an array. *)
Definition blit (dst : list Z) (off : Z) (src : list Z) : list Z :=
  firstn (Z.to_nat off) dst ++ src ++ skipn (Z.to_nat off + length src) dst.

(* C: memset(p, 0, n). *)
Definition zeros (n : nat) : list Z := repeat 0 n.

(* C: `~b` on a byte, osdp_sc.c:148. *)
Definition inv8 (b : Z) : Z := 255 - b.

(* C: byte-wise `^` of two buffers, tinyaes_src.c:489-497 XorWithIv and others. *)
Fixpoint xorl (a b : list Z) : list Z :=
  match a, b with
  | x :: a', y :: b' => Z.lxor x y :: xorl a' b'
  | _, _ => []
  end.

(* Little-endian reading macros, osdp_common.h:91-105 BYTES_TO_U16_LE / U24 / U32. *)
Definition le16 (b0 b1 : Z) : Z := b0 + 256 * b1.
Definition le24 (b0 b1 b2 : Z) : Z := b0 + 256 * b1 + 65536 * b2.
Definition le32 (b0 b1 b2 b3 : Z) : Z := b0 + 256 * b1 + 65536 * b2 + 16777216 * b3.

(** Reasons for leaving defined behaviour.  They do not model code; they name the places where
    the C text would be undefined or terminate the process. *)
Inductive why :=
| OobWrite       (* write outside an array *)
| OobRead        (* read outside an array *)
| NegLen         (* negative length passed as size_t *)
| NullCall       (* NULL pointer called or dereferenced *)
| BadUnion       (* union / ephemeral buffer read through a member that was not written *)
| BadShift       (* shift count not smaller than the width of int *)
| AppContract    (* the application returned something its contract forbids *)
| Assertion      (* failed assert / __ASSERT / BUG: process terminates *)
| OutOfFuel.     (* artefact of the model; proved unreachable *)

(* Outcome of modelled code: a value, undefined behaviour, or process termination. *)
Inductive res (A : Type) : Type :=
| Ok (a : A)
| UB (w : why)
| Die (w : why).
Arguments Ok {A} a.
Arguments UB {A} w.
Arguments Die {A} w.

(* Sequencing of outcomes (C statement sequence). *)
Definition bind {A B} (x : res A) (f : A -> res B) : res B :=
  match x with
  | Ok a => f a
  | UB w => UB w
  | Die w => Die w
  end.

Notation "'do' X <- E ; K" := (bind E (fun X => K))
  (at level 200, X pattern, E at level 100, K at level 200, right associativity).
