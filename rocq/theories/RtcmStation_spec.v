(** Which station messages are representable, i.e. what "every valid value of each field" means. *)
From Verif Require Import Base RtcmStation_model.

Definition ubits (n v : Z) : Prop := 0 <= v < 2 ^ n.
Definition sbits (n v : Z) : Prop := - 2 ^ (n - 1) <= v < 2 ^ (n - 1).
(** a text of at most 31/32/255 bytes *)
Definition text (maxlen : Z) (s : list Z) : Prop := bytes s /\ len s <= maxlen.

Definition wf_1005 (m : msg_1005) : Prop :=
  ubits 12 (stn_id m) /\ ubits 6 (itrf m) /\ ubits 1 (gps_ind m) /\ ubits 1 (glo_ind m) /\ ubits 1 (gal_ind m) /\
  ubits 1 (ref_stn_ind m) /\ sbits 38 (arp_x m) /\ ubits 1 (osc_ind m) /\ sbits 38 (arp_y m) /\
  ubits 2 (quart_cycle_ind m) /\ sbits 38 (arp_z m).
Definition wf_1006 (m : msg_1006) : Prop := wf_1005 (m6_1005 m) /\ 0 <= ant_height m <= 65535.
Definition wf_1007 (m : msg_1007) : Prop := ubits 12 (m7_stn_id m) /\ text 32 (ant_descriptor m) /\ ubits 8 (ant_setup_id m).
Definition wf_1008 (m : msg_1008) : Prop := wf_1007 (m8_1007 m) /\ text 32 (ant_serial_num m).
Definition wf_1029 (m : msg_1029) : Prop :=
  ubits 12 (m29_stn_id m) /\ ubits 16 (mjd_num m) /\ ubits 17 (utc_sec_of_day m) /\ ubits 7 (unicode_chars m) /\
  text 255 (utf8_code_units m).
Definition wf_1033 (m : msg_1033) : Prop :=
  ubits 12 (m33_stn_id m) /\ text 32 (m33_ant_descriptor m) /\ ubits 8 (m33_ant_setup_id m) /\ text 32 (m33_ant_serial_num m) /\
  text 32 (rcv_descriptor m) /\ text 32 (rcv_fw_version m) /\ text 32 (rcv_serial_num m).
(** a bias that the mask does not announce is zero *)
Definition bias_ok (mask bit b : Z) : Prop := sbits 16 b /\ (Z.testbit mask bit = false -> b = 0).
Definition wf_1230 (m : msg_1230) : Prop :=
  ubits 12 (m230_stn_id m) /\ ubits 1 (bias_indicator m) /\ ubits 4 (fdma_signal_mask m) /\
  bias_ok (fdma_signal_mask m) 3 (l1_ca m) /\ bias_ok (fdma_signal_mask m) 2 (l1_p m) /\
  bias_ok (fdma_signal_mask m) 1 (l2_ca m) /\ bias_ok (fdma_signal_mask m) 0 (l2_p m).
Definition wf_4062 (m : msg_4062) : Prop := ubits 16 (msg_type m) /\ ubits 16 (sender_id m) /\ text 255 (data m).

(** [encode] into any sufficiently large byte buffer yields [n] bytes from which [decode] yields [m]. *)
Definition round_trips {M} (encode : list Z -> list Z * Z) (decode : list Z -> res M) (nbytes : Z) (m : M) : Prop :=
  forall buff, bytes buff -> nbytes <= len buff ->
    let '(b, n) := encode buff in
    n = nbytes /\ len b = len buff /\ bytes b /\ decode (take n b) = Ok m.
