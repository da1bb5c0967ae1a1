(** Common vocabulary of the model: outcomes with undefined behaviour, octets,
    checked memory accesses and fixed-width integers.  Not itself a model of
    code in /repo. *)
From Coq Require Export List ZArith Lia Bool.
From Coq Require Export ZifyBool ZifyNat.
Export ListNotations.
Open Scope Z_scope.

(** The result of running a C function: a normal result, undefined behaviour
    (an access outside the object a pointer points into, or use of an
    uninitialised or released object), or fuel exhausted (the loop has not
    ended within the fuel given). *)
Inductive out (A : Type) : Type :=
| Ret (a : A)
| UB
| NoFuel.
Arguments Ret {A} a.
Arguments UB {A}.
Arguments NoFuel {A}.

Definition bind {A B} (m : out A) (k : A -> out B) : out B :=
  match m with Ret a => k a | UB => UB | NoFuel => NoFuel end.

Notation "'let*' x ':=' m 'in' k" := (bind m (fun x => k))
  (at level 200, x pattern, m at level 100, k at level 200, right associativity).

(** An octet. *)
Definition is_byte (b : Z) : Prop := 0 <= b < 256.
Definition bytes (l : list Z) : Prop := Forall is_byte l.

(** Checked read of [buf[i]]. *)
Definition rd {A} (buf : list A) (i : nat) : out A :=
  match nth_error buf i with Some b => Ret b | None => UB end.

(** Checked write of [buf[i] = v]. *)
Fixpoint upd {A} (buf : list A) (i : nat) (v : A) : list A :=
  match buf, i with
  | [], _ => []
  | _ :: t, O => v :: t
  | h :: t, S j => h :: upd t j v
  end.
Definition wr {A} (buf : list A) (i : nat) (v : A) : out (list A) :=
  if Nat.ltb i (length buf) then Ret (upd buf i v) else UB.

(** Checked read of [n] elements starting at [off] (the source of a memcpy). *)
Definition sub {A} (buf : list A) (off n : nat) : out (list A) :=
  if Nat.leb (off + n) (length buf) then Ret (firstn n (skipn off buf)) else UB.

(** Checked write of the elements [v] starting at [off] (the target of a
    memcpy or memset). *)
Definition put {A} (buf : list A) (off : nat) (v : list A) : out (list A) :=
  if Nat.leb (off + length v) (length buf)
  then Ret (firstn off buf ++ v ++ skipn (off + length v) buf)
  else UB.

(** Fixed-width integers: conversion to uint8_t, uint32_t, size_t (64 bit) and
    to int (32 bit, two's complement as gcc and clang define it). *)
Definition u8 (x : Z) : Z := x mod 256.
Definition u32 (x : Z) : Z := x mod 4294967296.
Definition u64 (x : Z) : Z := x mod 18446744073709551616.
Definition to_int (x : Z) : Z :=
  let y := x mod 4294967296 in
  if y <? 2147483648 then y else y - 4294967296.

Definition Zlen {A} (l : list A) : Z := Z.of_nat (length l).

(** Buffers whose size fits an [int]. *)
Definition small {A} (l : list A) : Prop := Zlen l < 2147483648.

(** All octets, for finite sweeps. *)
Definition all_bytes : list Z := map Z.of_nat (seq 0 256).
