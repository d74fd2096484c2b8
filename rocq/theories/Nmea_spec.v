(** Specification vocabulary for C44, C47, C55: what an NMEA sentence is. *)
From Verif Require Import Base NmeaTime_model NmeaTime_spec Nmea_model.

(** characters that may occur between '$' and '*': printable, neither '$' nor '*' *)
Definition body_char (c : Z) : Prop := 32 <= c < 127 /\ c <> 36 /\ c <> 42.
(** '$', body, '*', the two hexadecimal digits of the exclusive or of the body, CR LF *)
Definition checksum (l : list Z) : Z := fold_right Z.lxor 0 l.
Definition hex_digit_of (d c : Z) : Prop := (0 <= d < 10 /\ c = 48 + d) \/ (10 <= d < 16 /\ c = 65 + (d - 10)).
Definition nmea_sentence (body txt : list Z) : Prop :=
  Forall body_char body /\ exists h1 h2, txt = [36] ++ body ++ [42; h1; h2; 13; 10] /\ hex_digit_of (checksum body / 16) h1 /\ hex_digit_of (checksum body mod 16) h2.
(** number of commas *)
Fixpoint commas (l : list Z) : Z := match l with [] => 0 | c :: l => (if c =? 44 then 1 else 0) + commas l end.

(** messages whose fields are within the ranges of their types *)
Definition u8 (x : Z) : Prop := 0 <= x < 256.
Definition wf_sid (g : sigid) : Prop := u8 (sg_sat g).
Definition wf_utc (u : utc) : Prop := 0 <= u_year u < 65536 /\ u8 (u_month u) /\ u8 (u_day u) /\ u8 (u_hours u) /\ u8 (u_minutes u) /\ u8 (u_seconds u) /\ 0 <= u_ns u < 2 ^ 32.
Definition wf_slot (s : slot) : Prop :=
  match s_body s with
  | BUtc u => wf_utc u
  | BPos p => u8 (p_nsats p)
  | BAzel l => Forall (fun a => wf_sid (ae_sid a) /\ u8 (ae_az a) /\ -128 <= ae_el a < 128) l
  | BMeas l => Forall (fun m => wf_sid (me_sid m) /\ u8 (me_cn0 m)) l
  | _ => True
  end.
Definition wf_state (s : nst) : Prop := (forall id, wf_slot (n_slot s id)) /\ Forall wf_sid (n_sids s).
(** the UTC messages are marked invalid or hold a time of day with at most four-digit years *)
Definition utc_ok (u : utc) : Prop := u_flags u = 0 \/ (valid_utc u /\ 0 <= u_ns u < 1000000000).
Definition utc_slots_ok (s : nst) : Prop := forall id, utc_ok (as_utc (n_slot s id)).

(** commas in the sentences of each kind; GSV sentences have 3 and 4 more for each satellite *)
Definition field_commas (k : kind) (n : Z) : Prop :=
  match k with
  | GGA => n = 14 | RMC => n = 12 | VTG => n = 9 | HDT => n = 2 | GLL => n = 7 | ZDA => n = 6 | GSA => n = 17 | GST => n = 8
  | GSV => n = 3 \/ n = 7 \/ n = 11 \/ n = 15 \/ n = 19 | PUBX => n = 20 | THS => n = 2
  end.
