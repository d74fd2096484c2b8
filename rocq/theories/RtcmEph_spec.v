(** Which ephemerides each message can carry: the range of every field, and 0 for the fields the message does not have. *)
From Verif Require Import Base RtcmStation_spec RtcmEph_model.

(** an n-bit sign-magnitude number *)
Definition smag (n v : Z) : Prop := - 2 ^ (n - 1) < v < 2 ^ (n - 1).

(** 1019 *)
Definition wf_gps (m : keph) : Prop :=
  ubits 6 (e_sat m) /\ ubits 10 (e_wn m) /\ ubits 4 (e_ura m) /\ ubits 2 (e_codeL2 m) /\ sbits 14 (e_inc_dot m) /\ ubits 8 (e_iode m) /\
  ubits 16 (e_toc m) /\ sbits 8 (e_af2 m) /\ sbits 16 (e_af1 m) /\ sbits 22 (e_af0 m) /\ ubits 10 (e_iodc m) /\ sbits 16 (e_crs m) /\
  sbits 16 (e_dn m) /\ sbits 32 (e_m0 m) /\ sbits 16 (e_cuc m) /\ ubits 32 (e_ecc m) /\ sbits 16 (e_cus m) /\ ubits 32 (e_sqrta m) /\
  ubits 16 (e_toe m) /\ sbits 16 (e_cic m) /\ sbits 32 (e_omega0 m) /\ sbits 16 (e_cis m) /\ sbits 32 (e_inc m) /\ sbits 16 (e_crc m) /\
  sbits 32 (e_w m) /\ sbits 24 (e_omegadot m) /\ sbits 8 (e_tgd0 m) /\ ubits 6 (e_health m) /\ ubits 1 (e_fit m) /\ e_tgd1 m = 0.
(** 1042 *)
Definition wf_bds (m : keph) : Prop :=
  ubits 6 (e_sat m) /\ ubits 13 (e_wn m) /\ ubits 4 (e_ura m) /\ sbits 14 (e_inc_dot m) /\ ubits 5 (e_iode m) /\ ubits 17 (e_toc m) /\
  sbits 11 (e_af2 m) /\ sbits 22 (e_af1 m) /\ sbits 24 (e_af0 m) /\ ubits 5 (e_iodc m) /\ sbits 18 (e_crs m) /\ sbits 16 (e_dn m) /\
  sbits 32 (e_m0 m) /\ sbits 18 (e_cuc m) /\ ubits 32 (e_ecc m) /\ sbits 18 (e_cus m) /\ ubits 32 (e_sqrta m) /\ ubits 17 (e_toe m) /\
  sbits 18 (e_cic m) /\ sbits 32 (e_omega0 m) /\ sbits 18 (e_cis m) /\ sbits 32 (e_inc m) /\ sbits 18 (e_crc m) /\ sbits 32 (e_w m) /\
  sbits 24 (e_omegadot m) /\ sbits 10 (e_tgd0 m) /\ sbits 10 (e_tgd1 m) /\ ubits 1 (e_health m) /\
  e_fit m = 0 /\ e_codeL2 m = 0 /\ e_L2_data_bit m = false.
(** the fields 1045 and 1046 share *)
Definition wf_gal (m : keph) : Prop :=
  ubits 6 (e_sat m) /\ ubits 12 (e_wn m) /\ ubits 10 (e_iode m) /\ ubits 8 (e_ura m) /\ sbits 14 (e_inc_dot m) /\ ubits 14 (e_toc m) /\
  sbits 6 (e_af2 m) /\ sbits 21 (e_af1 m) /\ sbits 31 (e_af0 m) /\ sbits 16 (e_crs m) /\ sbits 16 (e_dn m) /\ sbits 32 (e_m0 m) /\
  sbits 16 (e_cuc m) /\ ubits 32 (e_ecc m) /\ sbits 16 (e_cus m) /\ ubits 32 (e_sqrta m) /\ ubits 14 (e_toe m) /\ sbits 16 (e_cic m) /\
  sbits 32 (e_omega0 m) /\ sbits 16 (e_cis m) /\ sbits 32 (e_inc m) /\ sbits 16 (e_crc m) /\ sbits 32 (e_w m) /\ sbits 24 (e_omegadot m) /\
  sbits 10 (e_tgd0 m) /\ e_fit m = 0 /\ e_iodc m = 0 /\ e_codeL2 m = 0 /\ e_L2_data_bit m = false.
(** 1046 *)
Definition wf_inav (m : keph) : Prop := wf_gal m /\ sbits 10 (e_tgd1 m) /\ ubits 6 (e_health m).
(** 1045 *)
Definition wf_fnav (m : keph) : Prop := wf_gal m /\ e_tgd1 m = 0 /\ ubits 3 (e_health m).
(** 1020 *)
Definition wf_glo (m : geph) : Prop :=
  ubits 6 (g_sat m) /\ ubits 5 (g_fcn m) /\ ubits 2 (g_fit m) /\ ubits 1 (g_health m) /\ ubits 7 (g_t_b m) /\
  smag 24 (g_vel0 m) /\ smag 27 (g_pos0 m) /\ smag 5 (g_acc0 m) /\ smag 24 (g_vel1 m) /\ smag 27 (g_pos1 m) /\ smag 5 (g_acc1 m) /\
  smag 24 (g_vel2 m) /\ smag 27 (g_pos2 m) /\ smag 5 (g_acc2 m) /\ smag 11 (g_gamma m) /\ smag 22 (g_tau m) /\ smag 5 (g_d_tau m) /\
  ubits 4 (g_ura m).
