(** iXCOM: c/libixcom/src/decode.c, c/libixcom/src/encode.c, c/gnss_converters/src/ixcom_sbp.c.
    Little-endian host (ixcom_set_bytes is memcpy).  float fields are 32-bit patterns. *)
From Flocq Require Import Core IEEE754.Binary IEEE754.Bits.
From Verif Require Import Base Bytestream_model Double_model UbxObs_model Esf_model UbxFraming_model.
Open Scope Z_scope.

(** crc_table: decode.c:26-55 (copied) *)
Definition crc_table : list Z :=
  [0x0000; 0x1021; 0x2042; 0x3063; 0x4084; 0x50a5; 0x60c6; 0x70e7; 0x8108; 0x9129; 0xa14a; 0xb16b; 0xc18c; 0xd1ad; 0xe1ce; 0xf1ef;
   0x1231; 0x0210; 0x3273; 0x2252; 0x52b5; 0x4294; 0x72f7; 0x62d6; 0x9339; 0x8318; 0xb37b; 0xa35a; 0xd3bd; 0xc39c; 0xf3ff; 0xe3de;
   0x2462; 0x3443; 0x0420; 0x1401; 0x64e6; 0x74c7; 0x44a4; 0x5485; 0xa56a; 0xb54b; 0x8528; 0x9509; 0xe5ee; 0xf5cf; 0xc5ac; 0xd58d;
   0x3653; 0x2672; 0x1611; 0x0630; 0x76d7; 0x66f6; 0x5695; 0x46b4; 0xb75b; 0xa77a; 0x9719; 0x8738; 0xf7df; 0xe7fe; 0xd79d; 0xc7bc;
   0x48c4; 0x58e5; 0x6886; 0x78a7; 0x0840; 0x1861; 0x2802; 0x3823; 0xc9cc; 0xd9ed; 0xe98e; 0xf9af; 0x8948; 0x9969; 0xa90a; 0xb92b;
   0x5af5; 0x4ad4; 0x7ab7; 0x6a96; 0x1a71; 0x0a50; 0x3a33; 0x2a12; 0xdbfd; 0xcbdc; 0xfbbf; 0xeb9e; 0x9b79; 0x8b58; 0xbb3b; 0xab1a;
   0x6ca6; 0x7c87; 0x4ce4; 0x5cc5; 0x2c22; 0x3c03; 0x0c60; 0x1c41; 0xedae; 0xfd8f; 0xcdec; 0xddcd; 0xad2a; 0xbd0b; 0x8d68; 0x9d49;
   0x7e97; 0x6eb6; 0x5ed5; 0x4ef4; 0x3e13; 0x2e32; 0x1e51; 0x0e70; 0xff9f; 0xefbe; 0xdfdd; 0xcffc; 0xbf1b; 0xaf3a; 0x9f59; 0x8f78;
   0x9188; 0x81a9; 0xb1ca; 0xa1eb; 0xd10c; 0xc12d; 0xf14e; 0xe16f; 0x1080; 0x00a1; 0x30c2; 0x20e3; 0x5004; 0x4025; 0x7046; 0x6067;
   0x83b9; 0x9398; 0xa3fb; 0xb3da; 0xc33d; 0xd31c; 0xe37f; 0xf35e; 0x02b1; 0x1290; 0x22f3; 0x32d2; 0x4235; 0x5214; 0x6277; 0x7256;
   0xb5ea; 0xa5cb; 0x95a8; 0x8589; 0xf56e; 0xe54f; 0xd52c; 0xc50d; 0x34e2; 0x24c3; 0x14a0; 0x0481; 0x7466; 0x6447; 0x5424; 0x4405;
   0xa7db; 0xb7fa; 0x8799; 0x97b8; 0xe75f; 0xf77e; 0xc71d; 0xd73c; 0x26d3; 0x36f2; 0x0691; 0x16b0; 0x6657; 0x7676; 0x4615; 0x5634;
   0xd94c; 0xc96d; 0xf90e; 0xe92f; 0x99c8; 0x89e9; 0xb98a; 0xa9ab; 0x5844; 0x4865; 0x7806; 0x6827; 0x18c0; 0x08e1; 0x3882; 0x28a3;
   0xcb7d; 0xdb5c; 0xeb3f; 0xfb1e; 0x8bf9; 0x9bd8; 0xabbb; 0xbb9a; 0x4a75; 0x5a54; 0x6a37; 0x7a16; 0x0af1; 0x1ad0; 0x2ab3; 0x3a92;
   0xfd2e; 0xed0f; 0xdd6c; 0xcd4d; 0xbdaa; 0xad8b; 0x9de8; 0x8dc9; 0x7c26; 0x6c07; 0x5c64; 0x4c45; 0x3ca2; 0x2c83; 0x1ce0; 0x0cc1;
   0xef1f; 0xff3e; 0xcf5d; 0xdf7c; 0xaf9b; 0xbfba; 0x8fd9; 0x9ff8; 0x6e17; 0x7e36; 0x4e55; 0x5e74; 0x2e93; 0x3eb2; 0x0ed1; 0x1ef0].
(** crc_byte: decode.c:65-67; the table index (crc >> 8) ^ byte is an int *)
Definition crc_byte (crc b : Z) : Z := Z.lxor (Z.shiftl crc 8) (znth 0 (Z.lxor (Z.shiftr crc 8) b) crc_table) mod 2 ^ 16.
(** ixcom_checksum: decode.c:77-83 *)
Definition ixcom_checksum (l : list Z) : Z := fold_left crc_byte l 0.

(** XCOMHeader: XCOMdat.h:27-48; XCOMFooter: XCOMdat.h:148-159 *)
Record xhdr := mk_xhdr { xh_sync : Z; xh_id : Z; xh_counter : Z; xh_trigger : Z; xh_len : Z; xh_week : Z; xh_sec : Z; xh_usec : Z }.
Record imuraw := mk_imuraw { ir_hdr : xhdr; ir_acc : list Z; ir_omg : list Z; ir_status : Z; ir_crc : Z }.
Record wheeldata := mk_wheeldata { wd_hdr : xhdr; wd_speed : Z; wd_ticks : Z; wd_status : Z; wd_crc : Z }.
(** ixcom_encode_header / ixcom_encode_footer / ixcom_encode_imuraw / ixcom_encode_wheeldata: encode.c:21-99 *)
Definition encode_xhdr (h : xhdr) : list Z :=
  le 1 (xh_sync h) ++ le 1 (xh_id h) ++ le 1 (xh_counter h) ++ le 1 (xh_trigger h) ++ le 2 (xh_len h) ++ le 2 (xh_week h) ++
  le 4 (xh_sec h) ++ le 4 (xh_usec h).
Definition encode_imuraw (m : imuraw) : list Z :=
  encode_xhdr (ir_hdr m) ++ flat_map (le 4) (ir_acc m) ++ flat_map (le 4) (ir_omg m) ++ le 2 (ir_status m) ++ le 2 (ir_crc m).
Definition encode_wheeldata (m : wheeldata) : list Z :=
  encode_xhdr (wd_hdr m) ++ le 4 (wd_speed m) ++ le 4 (wd_ticks m) ++ le 2 (wd_status m) ++ le 2 (wd_crc m).

(** little-endian number in [n] bytes of the buffer from [k] on *)
Fixpoint lev (n : nat) (buf : list Z) (k : Z) : Z :=
  match n with O => 0 | S n => znth 0 k buf + 256 * lev n buf (k + 1) end.
Definition signed32 (v : Z) : Z := if v <? 2 ^ 31 then v else v - 2 ^ 32.
(** ixcom_decode_header: decode.c:85-113 *)
Definition decode_xhdr (buf : list Z) : xhdr :=
  mk_xhdr (lev 1 buf 0) (lev 1 buf 1) (lev 1 buf 2) (lev 1 buf 3) (lev 2 buf 4) (lev 2 buf 6) (lev 4 buf 8) (lev 4 buf 12).
Definition XCOM_SYNC : Z := 0x7E.
(** ixcom_decode_imuraw: decode.c:132-172.  [buf] is the whole read buffer.  The checksum covers msg_len - 2u bytes (an
    unsigned int: huge when msg_len < 2, reading outside the buffer: Ub).  The footer is read at its place in the 44-byte message, not at
    msg_len - 4. *)
Definition checked {A} (buf : list Z) (ml crc : Z) (m : A) : res A :=
  if len buf <? (ml - 2) mod 2 ^ 32 then Ub
  else if ixcom_checksum (take ((ml - 2) mod 2 ^ 32) buf) =? crc then Ok m else Invalid.
Definition decode_imuraw (buf : list Z) : res imuraw :=
  let h := decode_xhdr buf in
  if negb (xh_sync h =? XCOM_SYNC) then Invalid
  else if negb (xh_id h =? 0x00) then Invalid
  else checked buf (xh_len h) (lev 2 buf 42)
         (mk_imuraw h [lev 4 buf 16; lev 4 buf 20; lev 4 buf 24] [lev 4 buf 28; lev 4 buf 32; lev 4 buf 36] (lev 2 buf 40) (lev 2 buf 42)).
(** ixcom_decode_wheeldata: decode.c:174-205 *)
Definition decode_wheeldata (buf : list Z) : res wheeldata :=
  let h := decode_xhdr buf in
  if negb (xh_sync h =? XCOM_SYNC) then Invalid
  else if negb (xh_id h =? 0x16) then Invalid
  else checked buf (xh_len h) (lev 2 buf 26)
         (mk_wheeldata h (lev 4 buf 16) (signed32 (lev 4 buf 20)) (lev 2 buf 24) (lev 2 buf 26)).

(** *** the reader: ixcom_sbp.c:35-94 *)
Definition IXCOM_BUFFER_SIZE : Z := 4096. (* ixcom_sbp.h:27 *)
Definition HEADER_SIZE : Z := 16.        (* sizeof(XCOMHeader), packed *)
Record xstate := mk_xs { x_buf : list Z; x_index : Z; x_sent : Z; x_reads : list read }.
(** ixcom_sbp_init: ixcom_sbp.c:16-29 (memset 0) *)
Definition x_init (rs : list read) : xstate := mk_xs (repeat 0 (Z.to_nat IXCOM_BUFFER_SIZE)) 0 0 rs.
Inductive xres := XFrame (message_length : Z) | XStop (code : Z) | XAssert | XOverflow | XFuel.
(** The user's read function asked for [n] bytes: it returns at most [n] bytes of what is available next (any short read is
    possible: the list of RData chunks is arbitrary), or a value <= 0; asked for 0 bytes it returns 0. *)
Definition do_read (n : Z) (rs : list read) : (list Z + Z) * list read :=
  if n =? 0 then (inr 0, rs)
  else match rs with
       | [] => (inr 0, [])
       | RStop k :: r => (inr k, r)
       | RData l :: r => if len l =? 0 then (inr 0, r) else if len l <=? n then (inl l, r) else (inl (take n l), RData (drop n l) :: r)
       end.
(** read_ixcom_bytes: ixcom_sbp.c:35-46.  [num_bytes] is a size_t, so is index + num_bytes.  inr: the value to stop with. *)
Definition read_ixcom_bytes (n : Z) (s : xstate) : (option Z) * xstate + xres :=
  if negb ((x_index s + n) mod 2 ^ 64 <? IXCOM_BUFFER_SIZE) then inr XAssert
  else match do_read n (x_reads s) with
       | (inr k, rs) => inl (Some k, mk_xs (x_buf s) (x_index s) (x_sent s) rs)
       | (inl l, rs) =>
           if IXCOM_BUFFER_SIZE <? x_index s + len l then inr XOverflow
           else inl (None, mk_xs (take (x_index s) (x_buf s) ++ l ++ drop (x_index s + len l) (x_buf s)) (x_index s + len l) (x_sent s) rs)
       end.
Definition message_length (s : xstate) : Z := znth 0 4 (x_buf s) + Z.shiftl (znth 0 5 (x_buf s)) 8.
(** read_ixcom_frame: ixcom_sbp.c:53-94.  The do-while loop with `continue` re-evaluates `true`. *)
Definition set_index (s : xstate) (i : Z) : xstate := mk_xs (x_buf s) i (x_sent s) (x_reads s).
Fixpoint read_ixcom_frame (fuel : nat) (s : xstate) : xres * xstate :=
  match fuel with
  | O => (XFuel, s)
  | S fuel =>
    match (if x_index s =? 0 then read_ixcom_bytes 1 s else inl (None, s)) with
    | inr x => (x, s)
    | inl (Some k, s) => (XStop k, s)
    | inl (None, s1) =>
      if (x_index s =? 0) && negb (znth 0 0 (x_buf s1) =? XCOM_SYNC) then read_ixcom_frame fuel (set_index s1 0)
      else
        match (if (0 <? x_index s1) && (x_index s1 <? HEADER_SIZE) then read_ixcom_bytes (HEADER_SIZE - x_index s1) s1 else inl (None, s1)) with
        | inr x => (x, s1)
        | inl (Some k, s2) => (XStop k, s2)
        | inl (None, s2) =>
          if HEADER_SIZE <=? x_index s2 then
            let ml := message_length s2 in
            match read_ixcom_bytes ((ml - x_index s2) mod 2 ^ 64) s2 with
            | inr x => (x, s2)
            | inl (Some k, s3) => (XStop k, s3)
            | inl (None, s3) => if ml <=? x_index s3 then (XFrame ml, s3) else read_ixcom_frame fuel s3
            end
          else read_ixcom_frame fuel s2
        end
    end
  end.
Definition x_pending (s : xstate) : list Z := all_data (x_reads s).
Definition read_frame_x (s : xstate) : xres * xstate := read_ixcom_frame (S (length (x_pending s))) s.

(** *** the handlers: ixcom_sbp.c:96-218 *)
(** convert_ixcom_to_sbp_tow: ixcom_sbp.c:100-106, unsigned 32-bit arithmetic; the u8 receives the value modulo 256 *)
Definition convert_ixcom_to_sbp_tow (i f : Z) : Z * Z :=
  ((i * 1000 + f / 1000) mod 2 ^ 32, ((f mod 1000) * 256 mod 2 ^ 32 / 1000) mod 256).
Definition fmul : binary32 -> binary32 -> binary32 := b32_mult mode_NE.
(** (float)(4.0 * 9.80665 / 32768.0), (float)(180.0 / M_PI), (float)(125.0 / 32768.0) *)
Definition f_acc : binary32 := fofbits 0x3a9ce80a.
Definition f_deg : binary32 := fofbits 0x42652ee1.
Definition f_gyr : binary32 := fofbits 0x3b7a0000.
(** float_to_s16_clamped: ixcom_sbp.c:123-133, the same function as in ubx_sbp.c (Esf_model.v) *)
Definition acc_field (bits : Z) : Z := float_to_s16_clamped (fdiv (fofbits bits) f_acc).
Definition gyr_field (bits : Z) : Z := float_to_s16_clamped (fdiv (fmul (fofbits bits) f_deg) f_gyr).
(** (s32)(speed * 1000): None when the value is not representable *)
Definition ftrunc (f : binary32) : option Z :=
  match f with
  | B754_zero _ _ _ => Some 0
  | B754_finite _ _ s m e _ => Some (if 0 <=? e then cond_Zopp s (Zpos m) * 2 ^ e else Z.quot (cond_Zopp s (Zpos m)) (2 ^ (- e)))
  | _ => None
  end.
Definition velocity_field (bits : Z) : option Z :=
  match ftrunc (fmul (fofbits bits) (fofZ 1000 0)) with Some z => if (- 2 ^ 31 <=? z) && (z <? 2 ^ 31) then Some z else None | None => None end.
Inductive xout :=
| XImuRaw (tow tow_f : Z) (acc gyr : list Z)
| XImuAux (imu_type temp conf : Z)
| XOdometry (tow : Z) (velocity : option Z) (flags : Z)
| XWheeltick (time flags source ticks : Z).
Definition XAux : xout := XImuAux 255 0 (Z.lor (Z.shiftl 4 4) 1).
(** handle_imuraw: ixcom_sbp.c:135-178.  None: Ub in the decoder *)
Definition handle_imuraw (s : xstate) : option (xstate * list xout) :=
  match decode_imuraw (x_buf s) with
  | Ub => None
  | Ok m =>
      let '(t, f) := convert_ixcom_to_sbp_tow (xh_sec (ir_hdr m)) (xh_usec (ir_hdr m)) in
      let r := XImuRaw t f (map acc_field (ir_acc m)) (map gyr_field (ir_omg m)) in
      if x_sent s mod 100 =? 0
      then Some (mk_xs (x_buf s) (x_index s) 1 (x_reads s), [r; XAux])
      else Some (mk_xs (x_buf s) (x_index s) (x_sent s + 1) (x_reads s), [r])
  | _ => Some (s, [])
  end.
(** handle_wheeldata: ixcom_sbp.c:183-215; odometry.tow is computed in u32, wheeltick.time in u64 *)
Definition handle_wheeldata (s : xstate) : option (xstate * list xout) :=
  match decode_wheeldata (x_buf s) with
  | Ub => None
  | Ok m =>
      let h := wd_hdr m in
      Some (s, [XOdometry ((xh_sec h * 1000 + xh_usec h / 1000) mod 2 ^ 32) (velocity_field (wd_speed m)) 1;
                XWheeltick ((xh_sec h * 1000000 + xh_usec h) mod 2 ^ 64) 1 0 (wd_ticks m)])
  | _ => Some (s, [])
  end.
(** ixcom_handle_frame: ixcom_sbp.c:217-235 *)
Definition handle_frame (s : xstate) : option (xstate * list xout) :=
  let id := znth 0 1 (x_buf s) in
  match (if id =? 0x00 then handle_imuraw s else if id =? 0x16 then handle_wheeldata s else Some (s, [])) with
  | None => None
  | Some (s, o) => Some (set_index s 0, o)
  end.
(** ixcom_sbp_process: ixcom_sbp.c:254-268: the result and the messages produced; XFrame with a length <= 0 is not handled *)
Definition ixcom_process (s : xstate) : option (xres * xstate * list xout) :=
  match read_frame_x s with
  | (XFrame n, s) =>
      if n <=? 0 then Some (XFrame n, s, [])
      else match handle_frame s with None => None | Some (s, o) => Some (XFrame n, s, o) end
  | (r, s) => Some (r, s, [])
  end.
(** the callers' loop (a program that keeps calling after a stop, until the stream is used up): the frames handed to
    ixcom_handle_frame, the messages produced; None: assertion, overflow, undefined behaviour *)
Fixpoint ixcom_run (fuel : nat) (s : xstate) : option (xstate * list (list Z) * list xout) :=
  match fuel with
  | O => Some (s, [], [])
  | S fuel =>
    match ixcom_process s with
    | Some (XFrame n, s1, o) =>
        match ixcom_run fuel s1 with
        | Some (s2, fs, o2) => Some (s2, take n (x_buf s1) :: fs, o ++ o2)
        | None => None
        end
    | Some (XStop _, s1, o) =>
        match x_reads s1 with
        | [] => Some (s1, [], o)
        | _ => match ixcom_run fuel s1 with Some (s2, fs, o2) => Some (s2, fs, o ++ o2) | None => None end
        end
    | _ => None
    end
  end.
