(** Model of the RTCM transport layer of rtcm2sbp_process. *)
From Verif Require Import Base Crc.

(** c/gnss_converters/src/rtcm3_sbp_internal.h:24-34 (RTCM3_PREAMBLE) and
    c/gnss_converters/include/gnss-converters/rtcm3_sbp.h:43-47 *)
Definition RTCM3_PREAMBLE : Z := 0xD3.
Definition RTCM3_MSG_OVERHEAD : Z := 6.
Definition RTCM3_MAX_MSG_LEN : Z := 1023.
Definition RTCM3_FIFO_SIZE : Z := 4096.
Definition RTCM3_BUFFER_SIZE : Z := RTCM3_FIFO_SIZE - RTCM3_MSG_OVERHEAD - RTCM3_MAX_MSG_LEN.

(** extract_msg_len: c/gnss_converters/src/rtcm3_sbp.c:1739-1741.  [l] is the buffer
    from the preamble on. *)
Definition extract_msg_len (l : list Z) : Z :=
  Z.land (Z.lor (Z.shiftl (znth 0 1 l) 8) (znth 0 2 l)) RTCM3_MAX_MSG_LEN.

(** verify_crc: c/gnss_converters/src/rtcm3_sbp.c:1745-1765, compiled without
    GNSS_CONVERTERS_DISABLE_CRC_VALIDATION.  Logging dropped. *)
Definition verify_crc (l : list Z) (buf_len : Z) : bool :=
  let msg_len := extract_msg_len l in
  if buf_len <? msg_len + RTCM3_MSG_OVERHEAD then false
  else
    let computed_crc := crc24q (take (3 + msg_len) l) in
    let frame_crc :=
      Z.lor (Z.lor (Z.shiftl (znth 0 (msg_len + 3) l) 16)
                   (Z.shiftl (znth 0 (msg_len + 4) l) 8))
            (znth 0 (msg_len + 5) l) in
    frame_crc =? computed_crc.

(** The while loop of rtcm2sbp_process: c/gnss_converters/src/rtcm3_sbp.c:1702-1726.
    [buf] holds the [avail_sz] bytes peeked from the FIFO (the zero padding of
    the C array up to 4096 is never inspected by the loop).  Result: the frames handed to
    rtcm2sbp_decode_frame, in order, and the final [index]; [None] = out of fuel. *)
Fixpoint scan_loop (fuel : nat) (buf : list Z) (index : Z) : option (list (list Z) * Z) :=
  match fuel with
  | O => None
  | S fuel =>
    let avail_sz := len buf in
    if index + RTCM3_MSG_OVERHEAD <? avail_sz then
      if negb (RTCM3_PREAMBLE =? znth 0 index buf) then scan_loop fuel buf (index + 1)
      else
        let msg_len := extract_msg_len (drop index buf) in
        if (msg_len =? 0) || (RTCM3_MAX_MSG_LEN <? msg_len) then scan_loop fuel buf (index + 1)
        else if avail_sz <? index + RTCM3_MSG_OVERHEAD + msg_len then Some ([], index)
        else if negb (verify_crc (drop index buf) (RTCM3_FIFO_SIZE - index))
             then scan_loop fuel buf (index + 1)
        else
          match scan_loop fuel buf (index + (msg_len + RTCM3_MSG_OVERHEAD)) with
          | None => None
          | Some (frames, fin) =>
              Some (take (msg_len + RTCM3_MSG_OVERHEAD) (drop index buf) :: frames, fin)
          end
    else Some ([], index)
  end.

(** rtcm2sbp_process: c/gnss_converters/src/rtcm3_sbp.c:1680-1737.  [chunk] is what the read
    callback returned ([] models a return value < 1).  [fifo] is the content of state->fifo.
    fifo_write/peek/remove are libswiftnav's byte FIFO (external): write stores as many
    bytes as fit in 4096 and returns that number; fifo_init empties it. *)
Definition process (fifo chunk : list Z) : option (list Z * list (list Z)) :=
  if len chunk <? 1 then Some (fifo, [])
  else
    let write_sz := Z.min (len chunk) (RTCM3_FIFO_SIZE - len fifo) in
    let fifo1 := if write_sz =? len chunk then fifo ++ chunk else [] in
    match scan_loop (S (length fifo1)) fifo1 0 with
    | None => None
    | Some (frames, index) =>
        Some ((if index <=? len fifo1 then drop index fifo1 else []), frames)
    end.

(** Calling rtcm2sbp_process once per element of [chunks], from the state left by
    rtcm2sbp_init (empty FIFO, rtcm3_sbp.c:130): remaining FIFO and all delivered frames. *)
Fixpoint run_from (fifo : list Z) (chunks : list (list Z)) : option (list Z * list (list Z)) :=
  match chunks with
  | [] => Some (fifo, [])
  | c :: cs =>
    match process fifo c with
    | None => None
    | Some (fifo', fs) =>
      match run_from fifo' cs with
      | None => None
      | Some (fifo'', fs') => Some (fifo'', fs ++ fs')
      end
    end
  end.
Definition run (chunks : list (list Z)) : option (list Z * list (list Z)) := run_from [] chunks.
