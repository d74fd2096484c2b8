(** Model of the bounds-checked bit reader behind the BITSTREAM_DECODE_* macros.
    c/librtcm/src/decode_helpers.h:4-117; swiftnav_bitstream_t itself is libswiftnav
    (external, submodule empty).  A bitstream is the list of bits not yet consumed;
    getbit*(bs, out, 0, n) fails iff fewer than n bits remain; remove(bs, n) drops n bits
    (all of them when fewer remain). *)
From Verif Require Import Base Bitstring Bits_model.

(** Outcome of running part of a decoder on a bitstream: a value and the remaining bits;
    RC_INVALID_MESSAGE, with the bits that remained at the point of failure (a failed
    getbit* removes nothing; callers that ignore the return code go on from there);
    RC_MESSAGE_TYPE_MISMATCH; undefined behaviour. *)
Inductive dout (A : Type) : Type :=
| DOk (a : A) (rest : list bool)
| DInvalid (rest : list bool)
| DMismatch
| DUb.
Arguments DOk {A} a rest. Arguments DInvalid {A} rest. Arguments DMismatch {A}. Arguments DUb {A}.

Definition dec (A : Type) : Type := list bool -> dout A.
Definition ret {A} (a : A) : dec A := fun bs => DOk a bs.
Definition fail {A} : dec A := fun bs => DInvalid bs.
Definition mismatch {A} : dec A := fun _ => DMismatch.
Definition undefined {A} : dec A := fun _ => DUb.
Definition dbind {A B} (x : dec A) (f : A -> dec B) : dec B :=
  fun bs => match x bs with
            | DOk a bs' => f a bs'
            | DInvalid r => DInvalid r
            | DMismatch => DMismatch | DUb => DUb
            end.
(** calling a sub-decoder and ignoring its return code *)
Definition attempt {A} (d : dec A) : dec (option A) :=
  fun bs => match d bs with
            | DOk a r => DOk (Some a) r
            | DInvalid r => DOk None r
            | DMismatch => DOk None bs
            | DUb => DUb
            end.
Notation "x <- e ;; f" := (dbind e (fun x => f)) (at level 61, e at next level, right associativity).

(** BITSTREAM_DECODE_U8/U16/U32/U64/BOOL: decode_helpers.h:4-24, 42-56, 74-88, 106-117 *)
Definition get_u (n : Z) : dec Z := fun bs =>
  if len bs <? n then DInvalid bs else DOk (val_be (take n bs)) (drop n bs).
(** BITSTREAM_DECODE_S8/S16/S32/S64 (sign extended from n bits) *)
Definition get_s (n : Z) : dec Z := fun bs =>
  if len bs <? n then DInvalid bs else DOk (to_signed n (val_be (take n bs))) (drop n bs).
(** swiftnav_bitstream_remove without a preceding check, e.g. decode.c:578 *)
Definition skip (n : Z) : dec unit := fun bs => DOk tt (drop n bs).
(** rtcm_get_sign_magnitude_bitstream, bits.c:201-210 *)
Definition get_sm (n : Z) : dec Z :=
  s <- get_s 1 ;; v <- get_u (n - 1) ;; ret (if negb (s =? 0) then - v else v).

(** "for (i = 0; i < n; i++) decode element" *)
Fixpoint get_list {A} (d : dec A) (n : nat) : dec (list A) :=
  match n with
  | O => ret []
  | S n => x <- d ;; xs <- get_list d n ;; ret (x :: xs)
  end.

(** result of a decoder: the struct it fills when it returns RC_OK *)
Definition run_dec {A} (d : dec A) (payload : list Z) : res A :=
  match d (bits_of_bytes payload) with
  | DOk a _ => Ok a
  | DInvalid _ => Invalid | DMismatch => TypeMismatch | DUb => Ub
  end.
