(** NovAtel binary input: c/nov2sbp/parser.  Little-endian host. *)
From Verif Require Import Base Bits_model Bytestream_model.
Open Scope Z_scope.

(** CrcChecker::kCrc32Polynomial: crc_checker.h:25 *)
Definition kCrc32Polynomial : Z := 0xEDB88320.
(** CrcChecker::crc32_byte_value: crc_checker.cc:22-32 *)
Definition crc32_shift (c : Z) : Z :=
  if negb (Z.land c 1 =? 0) then Z.lxor (Z.shiftr c 1) kCrc32Polynomial else Z.shiftr c 1.
Definition crc32_byte_value (b : Z) : Z := Nat.iter 8 crc32_shift b.
(** CrcChecker::get_crc: crc_checker.cc:34-44 *)
Definition crc32_step (crc b : Z) : Z :=
  Z.lxor (Z.land (Z.shiftr crc 8) 0x00FFFFFF) (crc32_byte_value (Z.land (Z.lxor crc b) 0xFF)).
Definition get_crc (l : list Z) : Z := fold_left crc32_step l 0.

(** Util::read_le_uint8/16/32/64, read_le_double, read_le_float (bit patterns): read_little_endian.h:43-76 *)
Definition read_le (n : Z) (buf : list Z) (off : Z) : Z := le_val (sub buf off n).

(** BinaryHeader, BinaryHeaderRegular: binary_header.h:24-53.  The callbacks receive a BinaryHeader *, i.e. these four fields. *)
Record nhdr := mk_nhdr { nh_len : Z; nh_id : Z; nh_week : Z; nh_ms : Z }.
(** BinaryHeader::read: binary_header.cc:18-27 (called with buffer_ + 3) *)
Definition read_short_header (buf : list Z) : nhdr :=
  mk_nhdr (read_le 1 buf 3) (read_le 2 buf 4) (read_le 2 buf 6) (to_signed 32 (read_le 4 buf 8)).
(** BinaryHeaderRegular::read: binary_header.cc:29-49 (called with buffer_ + 4); the fields the callbacks cannot see are omitted *)
Definition read_regular_header (buf : list Z) : nhdr :=
  mk_nhdr (read_le 2 buf 8) (read_le 2 buf 4) (read_le 2 buf 14) (to_signed 32 (read_le 4 buf 16)).

(** field kinds of the FromBytes functions: unsigned integer or float/double bit pattern of n bytes; signed; negated signed *)
Inductive fkind := FU (n : nat) | FS (n : nat) | FN (n : nat).
Definition fsize (k : fkind) : Z := match k with FU n | FS n | FN n => Z.of_nat n end.
Definition u4 := FU 4. Definition u2 := FU 2. Definition u1 := FU 1. Definition d8 := FU 8. Definition f4 := FU 4.
(** GPSEPHEM_t::FromBytes: message_gpsephem.cc:20-90 *)
Definition gpsephem_layout : list fkind :=
  [u4; d8; u4; u4; u4; u4; u4; d8; d8; d8; d8; d8; d8; d8; d8; d8; d8; d8; d8; d8; d8; d8; d8; u4; d8; d8; d8; d8; d8; u4; d8; d8].
(** BESTPOS_t::FromBytes: message_bestpos.cc:20-62 *)
Definition bestpos_layout : list fkind :=
  [u4; u4; d8; d8; d8; f4; u4; f4; f4; f4; u1; u1; u1; u1; f4; f4; u1; u1; u1; u1; u1; u1; u1; u1].
(** BESTVEL_t::FromBytes: message_bestvel.cc:8-29 *)
Definition bestvel_layout : list fkind := [u4; u4; f4; f4; d8; d8; d8; f4].
(** INSATT_t::FromBytes: message_insatt.cc:20-37 *)
Definition insatt_layout : list fkind := [u4; d8; d8; d8; d8; u4].
(** GLOEPHEMERIS_t::FromBytes: message_gloephemeris.cc:20-56 *)
Definition gloephemeris_layout : list fkind :=
  [u2; u2; u1; u1; u2; u4; u4; u2; u2; u4; u4; d8; d8; d8; d8; d8; d8; d8; d8; d8; d8; d8; d8; u4; u4; u4; u4; u4].
(** RAWIMUSX_t::FromBytes: message_rawimusx.cc:20-45 *)
Definition rawimusx_layout : list fkind := [u1; u1; u2; d8; u4; FS 4; FN 4; FS 4; FS 4; FN 4; FS 4].
Definition layout_size (l : list fkind) : Z := fold_right (fun k a => fsize k + a) 0 l.
(** one field; negating INT32_MIN is undefined behaviour *)
Definition read_field (k : fkind) (l : list Z) : res Z :=
  match k with
  | FU n => Ok (le_val (take (Z.of_nat n) l))
  | FS n => Ok (to_signed (8 * Z.of_nat n) (le_val (take (Z.of_nat n) l)))
  | FN n => let v := to_signed (8 * Z.of_nat n) (le_val (take (Z.of_nat n) l)) in
            if v =? - 2 ^ (8 * Z.of_nat n - 1) then Ub else Ok (- v)
  end.
Fixpoint read_fields (ks : list fkind) (l : list Z) : res (list Z) :=
  match ks with
  | [] => Ok []
  | k :: ks => bind (read_field k l) (fun v => bind (read_fields ks (drop (fsize k) l)) (fun vs => Ok (v :: vs)))
  end.
(** fixed-size FromBytes: the fields, then assert(i == n_bytes).  The assertion is checked first here: nothing observable
    happens between. *)
Definition fixed_from_bytes (ks : list fkind) (body : list Z) : res (list Z) :=
  if len body =? layout_size ks then read_fields ks body else Ub.

(** Util::read_le_bits64: read_little_endian.h:80-91: bit i of the result is bit (off + i) of the bytes, least significant first *)
Definition bit_of (l : list Z) (i : Z) : bool := negb (Z.land (znth 0 (i / 8) l) (Z.shiftl 1 (i mod 8)) =? 0).
Fixpoint read_le_bits64_from (l : list Z) (off : Z) (i : Z) (n : nat) : Z :=
  match n with O => 0 | S k => Z.lor (if bit_of l (off + i) then Z.shiftl 1 i else 0) (read_le_bits64_from l off (i + 1) k) end.
Definition read_le_bits64 (l : list Z) (off : Z) (n : nat) : Z := read_le_bits64_from l off 0 n.
Definition MAX_CHANNELS : Z := 63. (* message_rangecmp.h:16 *)
Definition kRecordBinarySize : Z := 24. (* message_rangecmp.h:26 *)
Record rcrec := mk_rcrec {
  rc_tracking_status : Z; rc_doppler : Z; rc_pseudorange : Z; rc_ADR : Z; rc_stddev_psr : Z; rc_stddev_adr : Z;
  rc_prn_slot : Z; rc_lock_time : Z; rc_CN0 : Z; rc_glo_freq_no : Z; rc_reserved : Z }.
(** the record loop of RANGECMP_t::FromBytes: message_rangecmp.cc:44-61; (x << 4) >> 4 on an int32 is sign extension from 28 bits *)
Definition read_record (l : list Z) : rcrec :=
  mk_rcrec (read_le_bits64 l 0 32)
    (Z.shiftr (to_signed 32 (Z.shiftl (read_le_bits64 l 32 28) 4 mod 2 ^ 32)) 4)
    (read_le_bits64 l 60 36) (to_signed 32 (read_le_bits64 l 96 32)) (read_le_bits64 l 128 4) (read_le_bits64 l 132 4)
    (read_le_bits64 l 136 8) (read_le_bits64 l 144 21) (read_le_bits64 l 165 5) (read_le_bits64 l 170 6) (read_le_bits64 l 176 16).
Fixpoint read_records (n : nat) (l : list Z) : list rcrec :=
  match n with O => [] | S n => read_record (take kRecordBinarySize l) :: read_records n (drop kRecordBinarySize l) end.
(** RANGECMP_t::FromBytes: message_rangecmp.cc:26-62; n_records is a size_t holding a u32, so n_records * 24 does not wrap *)
Definition rangecmp_from_bytes (body : list Z) : res (list rcrec) :=
  if len body <? 4 then Ub
  else let n := read_le 4 body 0 in
       if len body =? 4 + n * kRecordBinarySize
       then Ok (read_records (Z.to_nat (Z.min n MAX_CHANNELS)) (drop 4 body))
       else Ub.

Inductive nbody := NFields (l : list Z) | NRange (l : list rcrec).
(** Parser::parse_body: parser.cc:169-220; message.h:21-31.  None: no callback is invoked. *)
Definition layout_of (id : Z) : option (list fkind) :=
  if id =? 7 then Some gpsephem_layout
  else if id =? 42 then Some bestpos_layout
  else if id =? 99 then Some bestvel_layout
  else if id =? 263 then Some insatt_layout
  else if id =? 723 then Some gloephemeris_layout
  else if id =? 1462 then Some rawimusx_layout
  else None.
Definition parse_body (h : nhdr) (body : list Z) : res (option nbody) :=
  if nh_id h =? 140 then bind (rangecmp_from_bytes body) (fun r => Ok (Some (NRange r)))
  else match layout_of (nh_id h) with
       | Some ks => bind (fixed_from_bytes ks body) (fun f => Ok (Some (NFields f)))
       | None => Ok None
       end.

(** Parser::parse_regular_message: parser.cc:96-129, Parser::parse_short_message: parser.cc:135-163.
    Some (h, b): header and body of a message with a matching CRC, on which parse_body is called; None: drop one byte. *)
Definition MSG_REGULAR_HEADER_LEN : Z := 28.
Definition MSG_SHORT_HEADER_LEN : Z := 12.
Definition MSG_CRC_LEN : Z := 4.
Definition parse_regular_message (buf : list Z) : option (nhdr * list Z) :=
  if MSG_REGULAR_HEADER_LEN + MSG_CRC_LEN <=? len buf then
    if znth 0 3 buf =? MSG_REGULAR_HEADER_LEN then
      let h := read_regular_header buf in
      if nh_len h <=? len buf - MSG_REGULAR_HEADER_LEN - MSG_CRC_LEN then
        if read_le 4 buf (MSG_REGULAR_HEADER_LEN + nh_len h) =? get_crc (take (MSG_REGULAR_HEADER_LEN + nh_len h) buf)
        then Some (h, sub buf MSG_REGULAR_HEADER_LEN (nh_len h)) else None
      else None
    else None
  else None.
Definition parse_short_message (buf : list Z) : option (nhdr * list Z) :=
  if MSG_SHORT_HEADER_LEN + MSG_CRC_LEN <=? len buf then
    let h := read_short_header buf in
    if nh_len h <=? len buf - MSG_SHORT_HEADER_LEN - MSG_CRC_LEN then
      if read_le 4 buf (MSG_SHORT_HEADER_LEN + nh_len h) =? get_crc (take (MSG_SHORT_HEADER_LEN + nh_len h) buf)
      then Some (h, sub buf MSG_SHORT_HEADER_LEN (nh_len h)) else None
    else None
  else None.
(** The part of Parser::process between the read and the memmove: parser.cc:69-85: bytes consumed, and the message parsed *)
Definition parse_step (buf : list Z) : Z * option (nhdr * list Z) :=
  if (3 <=? len buf) && (znth 0 0 buf =? 0xAA) && (znth 0 1 buf =? 0x44) && (znth 0 2 buf =? 0x12) then
    match parse_regular_message buf with
    | Some (h, b) => (MSG_REGULAR_HEADER_LEN + MSG_CRC_LEN + nh_len h, Some (h, b))
    | None => (1, None)
    end
  else if (3 <=? len buf) && (znth 0 0 buf =? 0xAA) && (znth 0 1 buf =? 0x44) && (znth 0 2 buf =? 0x13) then
    match parse_short_message buf with
    | Some (h, b) => (MSG_SHORT_HEADER_LEN + MSG_CRC_LEN + nh_len h, Some (h, b))
    | None => (1, None)
    end
  else (1, None).

(** The user's read function: a state machine that, asked for at most n bytes, returns None (a negative value) or some
    bytes, possibly none. *)
Definition reader (S : Type) : Type := Z -> S -> option (list Z) * S.
Inductive nstop := NDone | NReadError | NUb | NFuel.
(** what the parser did: callbacks in order, bytes received from the reader, why it stopped *)
Record ntrace := mk_ntrace { nt_calls : list (nhdr * nbody); nt_received : list Z; nt_stop : nstop }.
Definition kBufferSize : Z := 4096. (* parser.h:61 *)
Definition tcons (calls : list (nhdr * nbody)) (got : list Z) (t : ntrace) : ntrace :=
  mk_ntrace (calls ++ nt_calls t) (got ++ nt_received t) (nt_stop t).
(** Parser::process: parser.cc:56-90, the do-while loop with fuel; the assertion num_bytes_consumed <= num_bytes_in_buffer_ *)
Fixpoint process {S} (rd : reader S) (fuel : nat) (buf : list Z) (s : S) : ntrace :=
  match fuel with
  | O => mk_ntrace [] [] NFuel
  | Datatypes.S fuel =>
    match rd (kBufferSize - len buf) s with
    | (None, _) => mk_ntrace [] [] NReadError
    | (Some got, s') =>
      let buf1 := buf ++ got in
      let '(consumed, msg) := parse_step buf1 in
      match (match msg with None => Ok None | Some (h, b) => bind (parse_body h b) (fun o => Ok (option_map (pair h) o)) end) with
      | Ok o =>
        let calls := match o with Some c => [c] | None => [] end in
        if len buf1 <? consumed then tcons calls got (mk_ntrace [] [] NUb)
        else let buf2 := drop consumed buf1 in
             if 0 <? len buf2 then tcons calls got (process rd fuel buf2 s') else tcons calls got (mk_ntrace [] [] NDone)
      | _ => tcons [] got (mk_ntrace [] [] NUb)
      end
    end
  end.
(** Parser::Parser: parser.cc:45-54: empty buffer *)
Definition run_parser {S} (rd : reader S) (fuel : nat) (s : S) : ntrace := process rd fuel [] s.

(** readfn of the nov2sbp tool: src/nov2sbp_main.cc:27-33.  State: what is left of the input file, and the end-of-file
    indicator, which fread sets when it returns less than it was asked for. *)
Definition stdin_reader : reader (list Z * bool) := fun n st =>
  let '(rest, eof) := st in
  if eof : bool then (None, st) else (Some (take n rest), (drop n rest, len rest <? n)).
