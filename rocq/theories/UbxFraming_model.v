(** Model of the UBX frame reader: c/gnss_converters/src/ubx_sbp.c:113-221 and ubx_sbp_process (same file, 1412-1431).
    The read buffer (UBX_BUFFER_SIZE = 4096) is represented by its unread part read_buffer[index .. bytes_in_buffer);
    index <= bytes_in_buffer always.  The stream is the list of what the successive calls of the user's read function return:
    some bytes (at least one, at most the 4096 asked for), or a value <= 0 (end of stream or error), after which
    it may be called again; past the end of the list it returns 0. *)
From Verif Require Import Base.

Inductive read := RData (l : list Z) | RStop (code : Z).
Record ustate := mku { u_buf : list Z; u_reads : list read }.
Inductive rres := ROk (l : list Z) | RErr (code : Z).

(** read_ubx_bytes: ubx_sbp.c:126-154.  [acc]: buf[0 .. bytes_read).  Both ways into reload_ubx_buffer (bytes_in_buffer = 0 and
    not enough bytes left) leave the unread part empty and take the next read; what was copied so far is lost on failure. *)
Fixpoint read_loop (acc : list Z) (n : Z) (buf : list Z) (reads : list read) : rres * ustate :=
  if len buf <? n
  then match reads with
       | [] => (RErr 0, mku [] [])
       | RStop k :: r => (RErr k, mku [] r)
       | RData l :: r => read_loop (acc ++ buf) (n - len buf) l r
       end
  else (ROk (acc ++ take n buf), mku (drop n buf) reads).
Definition read_bytes (n : Z) (s : ustate) : rres * ustate := read_loop [] n (u_buf s) (u_reads s).

(** ubx_checksum: c/libubx/src/decode.c:31-40 *)
Definition ubx_checksum (l : list Z) : Z * Z :=
  fold_left (fun ck b => let a := (fst ck + b) mod 256 in (a, (snd ck + a) mod 256)) l (0, 0).

Definition SYNC1 : Z := 0xB5.
Definition SYNC2 : Z := 0x62.
Definition UBX_FRAME_SIZE : Z := 4096.
Inductive fres := FFrame (f : list Z) | FStop (code : Z) | FFuel.
Definition stop_code (k : Z) : Z := if k =? 0 then -1 else k.
(** "while (frame[0] == UBX_SYNC_CHAR_1) read 1 byte": ubx_sbp.c:172-177.  [b] is frame[0] *)
Fixpoint skip_sync (fuel : nat) (b : Z) (s : ustate) : (option Z + Z) * ustate :=
  match fuel with
  | O => (inl None, s)
  | S fuel =>
    if b =? SYNC1
    then match read_bytes 1 s with
         | (ROk l, s) => skip_sync fuel (znth 0 0 l) s
         | (RErr k, s) => (inr k, s)
         end
    else (inl (Some b), s)
  end.
(** read_ubx_frame: ubx_sbp.c:160-221.  The loop condition bytes_in_buffer != 0 holds whenever a read has succeeded.
    The frame returned is frame[0 .. payload_length + 4): class, id, length, payload. *)
Fixpoint frame_loop (fuel : nat) (s : ustate) : fres * ustate :=
  match fuel with
  | O => (FFuel, s)
  | S fuel =>
    match read_bytes 1 s with
    | (RErr k, s) => (FStop (stop_code k), s)
    | (ROk l, s) =>
      if negb (znth 0 0 l =? SYNC1) then frame_loop fuel s
      else
        match skip_sync fuel (znth 0 0 l) s with
        | (inr k, s) => (FStop (stop_code k), s)
        | (inl None, s) => (FFuel, s)
        | (inl (Some b), s) =>
          if negb (b =? SYNC2) then frame_loop fuel s
          else
            match read_bytes 4 s with
            | (RErr k, s) => (FStop (stop_code k), s)
            | (ROk hd, s) =>
              let payload_length := znth 0 2 hd + Z.shiftl (znth 0 3 hd) 8 in
              if UBX_FRAME_SIZE - 6 <? payload_length then frame_loop fuel s
              else
                match read_bytes (payload_length + 2) s with
                | (RErr k, s) => (FStop (stop_code k), s)
                | (ROk body, s) =>
                  let frame := hd ++ body in
                  let ck := ubx_checksum (take (4 + payload_length) frame) in
                  if negb ((fst ck =? znth 0 (4 + payload_length) frame) && (snd ck =? znth 0 (5 + payload_length) frame))
                  then frame_loop fuel s
                  else (FFrame (take (payload_length + 4) frame), s)
                end
            end
        end
    end
  end.
(** bytes that can still be read: bounds the number of iterations *)
Definition all_data (rs : list read) : list Z := flat_map (fun r => match r with RData l => l | RStop _ => [] end) rs.
Definition pending (s : ustate) : list Z := u_buf s ++ all_data (u_reads s).
Definition read_frame (s : ustate) : fres * ustate := frame_loop (S (length (pending s))) s.

(** successive calls of ubx_sbp_process (ubx_sbp.c:1412-1431): the frames handed to ubx_handle_frame *)
Fixpoint calls (n : nat) (s : ustate) : list fres * ustate :=
  match n with
  | O => ([], s)
  | S n => let '(r, s) := read_frame s in let '(rs, s) := calls n s in (r :: rs, s)
  end.
(** ubx2sbp's main loop (c/ubx2sbp/src/ubx2sbp.c:92-95): process until a negative result *)
Fixpoint until_stop (fuel : nat) (s : ustate) : list (list Z) * ustate :=
  match fuel with
  | O => ([], s)
  | S fuel => match read_frame s with
              | (FFrame f, s) => let '(fs, s) := until_stop fuel s in (f :: fs, s)
              | (_, s) => ([], s)
              end
  end.
Definition process_all (s : ustate) : list (list Z) := fst (until_stop (S (length (pending s))) s).
