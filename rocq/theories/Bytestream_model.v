(** Little-endian byte codecs: libswiftnav's swiftnav_bytestream (get_bytes + remove; external, not in the repository), as used
    through BYTESTREAM_DECODE_BYTES (c/libubx/src/decode_helpers.h:4-13), and memcpy of integer objects on a little-endian
    machine as used by c/libubx/src/encode.c. *)
From Verif Require Import Base Bits_model.

(** memory image of an integer of n bytes, little endian, two's complement *)
Fixpoint le (n : nat) (v : Z) : list Z := match n with O => [] | S k => v mod 256 :: le k (v / 256) end.
Fixpoint le_val (l : list Z) : Z := match l with [] => 0 | b :: r => b + 256 * le_val r end.

Definition bdec (A : Type) : Type := list Z -> res (A * list Z).
Definition bret {A} (a : A) : bdec A := fun l => Ok (a, l).
Definition bbind {A B} (d : bdec A) (f : A -> bdec B) : bdec B :=
  fun l => match d l with Ok (a, r) => f a r | TypeMismatch => TypeMismatch | Invalid => Invalid | Ub => Ub end.
Notation "x <~ d ;; f" := (bbind d (fun x => f)) (at level 80, d at level 40, right associativity).
Definition check_then {A} (b : bool) (d : bdec A) : bdec A := if b then d else fun _ => TypeMismatch.
Notation "'check' b ;;; d" := (check_then b d) (at level 80, b at level 0, right associativity).
Definition binvalid {A} : bdec A := fun _ => Invalid.
Definition bub {A} : bdec A := fun _ => Ub.

(** BYTESTREAM_DECODE_BYTES of an unsigned / signed object of n bytes; RC_INVALID_MESSAGE when fewer than n bytes are left *)
Definition getu (n : nat) : bdec Z := fun l =>
  if len l <? Z.of_nat n then Invalid else Ok (le_val (take (Z.of_nat n) l), drop (Z.of_nat n) l).
Definition gets (n : nat) : bdec Z := fun l =>
  if len l <? Z.of_nat n then Invalid
  else Ok (to_signed (8 * Z.of_nat n) (le_val (take (Z.of_nat n) l)), drop (Z.of_nat n) l).
(** for loops *)
Fixpoint get_n {A} (n : nat) (d : bdec A) : bdec (list A) :=
  match n with
  | O => bret []
  | S k => x <~ d ;; r <~ get_n k d ;; bret (x :: r)
  end.
(** "for (i = 0; i < n; i++) read into a[i]" into an array of [cap] elements; i: current index *)
Fixpoint get_array {A} (cap : Z) (i : Z) (n : nat) (d : bdec A) : bdec (list A) :=
  match n with
  | O => bret []
  | S k => if cap <=? i then bub else x <~ d ;; r <~ get_array cap (i + 1) k d ;; bret (x :: r)
  end.
(** what fits an n-byte unsigned / signed object *)
Definition ufits (n : nat) (v : Z) : Prop := 0 <= v < 256 ^ Z.of_nat n.
Definition sfits (n : nat) (v : Z) : Prop := - (256 ^ Z.of_nat n / 2) <= v < 256 ^ Z.of_nat n / 2.
