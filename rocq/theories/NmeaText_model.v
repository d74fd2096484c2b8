(** Model of the text layer of the NMEA output: c/gnss_converters/src/nmea.c, the sentence buffer, its checksum and the formats used.
    Characters are byte values.  printf formatting (external, C library, "C" locale) is modelled for the integer conversions that occur. *)
From Coq Require Import String Ascii.
From Verif Require Import Base.

Definition str (s : string) : list Z := List.map (fun a => Z.of_nat (nat_of_ascii a)) (list_ascii_of_string s).
Definition DOLLAR : Z := 36.
Definition STAR : Z := 42.
Definition COMMA : Z := 44.
Definition CR : Z := 13.
Definition LF : Z := 10.

(** "%u" *)
Fixpoint dec_fuel (f : nat) (n : Z) : list Z :=
  match f with O => [] | S f => if n <? 10 then [48 + n] else dec_fuel f (n / 10) ++ [48 + n mod 10] end.
Definition dec (n : Z) : list Z := dec_fuel (Z.to_nat (Z.log2 (Z.max 1 n)) + 1) n.
Definition pad (w : Z) (l : list Z) : list Z := repeat 48 (Z.to_nat (w - len l)) ++ l.
(** "%0wu" and "%0wd" *)
Definition fmt_u (w n : Z) : list Z := pad w (dec n).
Definition fmt_d (w n : Z) : list Z := if n <? 0 then 45 :: pad (w - 1) (dec (- n)) else pad w (dec n).
(** "%02X" of a byte *)
Definition hexdigit (d : Z) : Z := if d <? 10 then 48 + d else 55 + d.
Definition hex2 (b : Z) : list Z := [hexdigit (b / 16); hexdigit (b mod 16)].

(** memory: writing outside the buffer is Ub *)
Definition write (mem : list Z) (p : Z) (l : list Z) : res (list Z) :=
  if (0 <=? p) && (p + len l <=? len mem) then Ok (take p mem ++ l ++ drop (p + len l) mem) else Ub.
(** snprintf(buf + p, n, ...) producing the text [s] *)
Definition snprintf (mem : list Z) (p n : Z) (s : list Z) : res (list Z) :=
  if n <=? 0 then Ok mem else write mem p (take (n - 1) s ++ [0]).

Definition NMEA_SUFFIX_LEN : Z := 6.
(** NMEA_SENTENCE_PRINTF: nmea.c:93-99.  Assumes that snprintf reports no error. *)
Definition sentence_printf (max_len : Z) (b : list Z * Z) (s : list Z) : res (list Z * Z) :=
  let '(mem, p) := b in
  bind (snprintf mem p (max_len - p) s) (fun mem =>
  let p := p + len s in Ok (mem, if max_len <=? p then max_len else p)).
Fixpoint printfs (max_len : Z) (b : list Z * Z) (parts : list (list Z)) : res (list Z * Z) :=
  match parts with [] => Ok b | s :: parts => bind (sentence_printf max_len b s) (fun b => printfs max_len b parts) end.
(** nmea_append_checksum: nmea.c:143-162; [size] = sizeof(sentence_buf) *)
Fixpoint sum_loop (fuel : nat) (mem : list Z) (p sum : Z) : Z * Z :=
  match fuel with
  | O => (p, sum)
  | S fuel => if negb (znth 0 p mem =? STAR) && negb (znth 0 p mem =? 0) && (p + NMEA_SUFFIX_LEN <? len mem)
              then sum_loop fuel mem (p + 1) (Z.lxor sum (znth 0 p mem)) else (p, sum)
  end.
Definition append_checksum (mem : list Z) : res (list Z) :=
  let size := len mem in
  let p := if znth 0 0 mem =? DOLLAR then 1 else 0 in
  let '(p, sum) := sum_loop (Datatypes.length mem) mem p 0 in
  if 0 <? size - p then snprintf mem p (size - p) ([STAR] ++ hex2 sum ++ [CR; LF]) else Ok mem.
(** the text up to the terminating NUL *)
Fixpoint cstring (l : list Z) : list Z := match l with [] => [] | c :: r => if c =? 0 then [] else c :: cstring r end.
(** NMEA_SENTENCE_START .. PRINTF* .. NMEA_SENTENCE_DONE: nmea.c:84-113; [init] is the uninitialised buffer of max_len + 6 characters, the result is
    what the output callback receives *)
Definition sentence (max_len : Z) (init : list Z) (parts : list (list Z)) : res (list Z) :=
  bind (printfs max_len (init, 0) parts) (fun '(mem, _) => bind (append_checksum mem) (fun mem => Ok (cstring mem))).

(** vsnprintf_wrap: nmea.c:169-191; [e] = buf_end - start of the buffer *)
Definition vsnprintf_wrap (e : Z) (b : list Z * Z) (s : list Z) : res (list Z * Z) := sentence_printf e b s.
