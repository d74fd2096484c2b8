(** Bit strings, most significant bit first: the vocabulary in which bit-level codecs are
    specified. Not a model of any code. *)
From Verif Require Import Base.

(** bit [i] of a buffer, bit 0 being the most significant bit of byte 0 *)
Definition bitat (buff : list Z) (i : Z) : bool := Z.testbit (znth 0 (i / 8) buff) (7 - i mod 8).
Fixpoint bits_at (buff : list Z) (pos : Z) (n : nat) : list bool :=
  match n with O => [] | S n => bitat buff pos :: bits_at buff (pos + 1) n end.
(** the [n] low-order bits of [v], most significant first *)
Fixpoint bits_be (n : nat) (v : Z) : list bool :=
  match n with O => [] | S n => Z.testbit v (Z.of_nat n) :: bits_be n v end.
(** value of a bit string, most significant first *)
Definition val_be (l : list bool) : Z := fold_left (fun a b => 2 * a + Z.b2z b) l 0.


(** all bits of a byte string *)
Definition bits_of_bytes (l : list Z) : list bool := flat_map (bits_be 8) l.

(** a bit field: width and value; the bits it occupies; total width of a list of fields *)
Definition field : Type := (Z * Z)%type.
Definition fbits (f : field) : list bool := bits_be (Z.to_nat (fst f)) (snd f).
Definition fields_bits (fs : list field) : list bool := flat_map fbits fs.
Definition width_ok (f : field) : Prop := 1 <= fst f <= 64.
Definition total (fs : list field) : Z := fold_right (fun f a => fst f + a) 0 fs.

