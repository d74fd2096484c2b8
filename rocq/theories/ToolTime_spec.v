(** C83: a stream of epochs received by rtcm3tosbp -o. *)
From Verif Require Import Base Time_model Signals_model RtcmMsm_model Sbp2Rtcm_model RxTx_spec Rx_spec ObsExcl_spec.
Local Open Scope Z_scope.
(** the program's time after the messages of epoch [e]: the time of the epoch, except that an epoch exactly at the start of a week does not count *)
Definition time_after (t : gtime) (e : Sbp2Rtcm_model.epoch) : gtime := if oh_tow (e_hdr e) =? 0 then t else mkt (oh_wn (e_hdr e)) (oh_tow (e_hdr e)).
(** every epoch is in step with the program's time when it arrives *)
Fixpoint followed (code_of : Z -> code) (leap : Z) (t : gtime) (es : list Sbp2Rtcm_model.epoch) : Prop :=
  match es with
  | [] => True
  | e :: es => in_step (fun _ => leap) leap (has_glo code_of (e_obs e)) (epoch_ms e) t /\ followed code_of leap (time_after t e) es
  end.
(** each epoch after the one before, at most 15 s later *)
Fixpoint steady (x : Z) (es : list Sbp2Rtcm_model.epoch) : Prop :=
  match es with [] => True | e :: es => 0 < epoch_ms e - x <= 15000 /\ steady (epoch_ms e) es end.
(** the week number of an epoch fits the time arithmetic *)
Definition week_ok (e : Sbp2Rtcm_model.epoch) : Prop := 2 < oh_wn (e_hdr e) < 32765.
