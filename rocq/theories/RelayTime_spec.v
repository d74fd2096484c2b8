(** C84, second part: a history through sbp2rtcm and rtcm3tosbp -o, which takes its time from the epochs it sends. *)
From Verif Require Import Base Time_model RtcmMsm_model Signals_model Sbp2Rtcm_model Conv_model Rx_spec ObsExcl_spec RxTx_spec ToolTime_spec Relay_model Relay_spec.
Local Open Scope Z_scope.
Import ListNotations.
Definition bare (e : Sbp2Rtcm_model.epoch) : bool := match e_obs e with [] => true | _ => false end.
(** the program's time after an item *)
Definition time_after_item (t : gtime) (i : item) : gtime := match i with IEpoch e => if bare e then t else time_after t e | IMsg _ => t end.
(** the program's time is right for every item when it comes *)
Fixpoint items_followed (code_of : Z -> code) (leap : Z) (t : gtime) (l : list item) : Prop :=
  match l with
  | [] => True
  | i :: l => match i with IEpoch e => bare e = false -> in_time code_of (fun _ => leap) leap i (Some t) | IMsg _ => in_time code_of (fun _ => leap) leap i (Some t) end /\
              items_followed code_of leap (time_after_item t i) l
  end.
(** the epochs with observations *)
Definition real_epochs (l : list item) : list Sbp2Rtcm_model.epoch := filter (fun e => negb (bare e)) (epochs_of l).
Definition is_glo_eph (i : item) : bool := match i with IMsg m => match i_body m with BGlo _ _ => true | _ => false end | _ => false end.
