(** C84: a history of SBP messages through sbp2rtcm and rtcm3tosbp. *)
From Coq Require Import Reals.
From Flocq Require Import Core IEEE754.Binary IEEE754.Bits.
From Verif Require Import Base Tables_model Tables_spec Double_model RtcmEph_model SbpEph_model SbpEph_spec RtcmStation_spec StaConv_spec RtcmMsm_model Signals_model Sbp2Rtcm_model Sbp2Msm_model MsmVal_spec Conv_model Tunnel_model Tunnel_spec EphOut_model EphOut_spec
  Time_model ObsBuffer_model ObsBuffer_spec ObsExcl_spec Rx_spec RxTx_spec Relay_model.
From Verif Require StaConv_model.
Local Open Scope Z_scope.
Import ListNotations.

(** what a history consists of for the receiver: an observation epoch counts when it is complete, every other message at once *)
Inductive item := IEpoch (e : Sbp2Rtcm_model.epoch) | IMsg (m : sbpin).
Definition epochs_of (l : list item) : list Sbp2Rtcm_model.epoch := flat_map (fun i => match i with IEpoch e => [e] | IMsg _ => [] end) l.
Definition others_of (l : list item) : list sbpin := flat_map (fun i => match i with IEpoch _ => [] | IMsg m => [m] end) l.
Definition is_obs (m : sbpin) : bool := match i_body m with BObs _ => true | _ => false end.
(** a message that leaves its sender behind as the sender of the epoch being assembled (see C30) *)
Definition leaves_sender (m : sbpin) : bool :=
  match i_body m with BBase _ _ _ | BBias _ _ _ _ _ => true | BRaw ty p => (ty =? 1025) && (2 <=? len p) | _ => false end.
(** what the history is for the epoch assembly of C28 *)
Definition event_of (m : sbpin) : list Sbp2Rtcm_model.event :=
  match i_body m with BObs p => [EObs (i_sender m) p] | _ => if leaves_sender m then [EOther (i_sender m)] else [] end.
(** the items in their order: the epochs assembled by C28's machine where they are completed, the other messages where they are *)
Fixpoint items (st : ost) (ms : list sbpin) : res (ost * list item) :=
  match ms with
  | [] => Ok (st, [])
  | m :: ms => bind (Sbp2Rtcm_model.run st (event_of m)) (fun '(st, es) => bind (items st ms) (fun '(st, l) =>
                 Ok (st, map IEpoch es ++ (if is_obs m then [] else [IMsg m]) ++ l)))
  end.

Section Spec.
Variables (carrier : code -> Z) (code_of : Z -> code) (adj : Z -> Z) (mw : Z -> Z -> option Z) (sbp_ok : Z -> list Z -> bool) (masked : RtcmMsm_model.cons -> bool) (utc_offset : gtime -> Z) (leap : Z).

(** ** a history that can be converted *)
Definition body_ok (sd : Z) (b : body) : Prop :=
  match b with
  | BObs _ => True
  | BBase x y z => coord_ok x /\ coord_ok y /\ coord_ok z
  | BBias m a b c d => s16 a /\ s16 b /\ s16 c /\ s16 d
  | BGps s => gps_representable s /\ (exists n, 0 <= n <= 15 /\ s_ura s = ura_to_uri n) /\ s_toe s = s_toc s /\ s_toe_wn s = s_toc_wn s /\ mw (adj (s_toc_wn s mod 1024)) (s_toc s) = Some (s_toc_wn s)
  | BBds s => bds_representable s /\ (exists n, 0 <= n <= 15 /\ s_ura s = bds_ura_to_meters n) /\ (forall w, s_toc_wn s <= w -> adj w = w)
  | BGal s => (s_source s = 0 /\ gal_representable 32 s \/ s_source s = 1 /\ gal_representable 4 s) /\ (exists n, 0 <= n <= 125 /\ s_ura s = sisa_to_meters n) /\
      mw (adj (s_toe_wn s)) (s_toe s) = Some (s_toe_wn s) /\ mw (adj (s_toe_wn s)) (s_toc s) = Some (s_toc_wn s)
  | BGlo s _ => glo_representable leap s /\ (exists n, 0 <= n <= 15 /\ sg_ura s = glo_ft_to_meters n)
  | BRaw ty p => wf_sbp (mksbp ty sd p) \/ (ty = 1025 /\ len p < 2)
  | BIgnored => True
  end.
(** an epoch without observations is completed, for instance, when the sender changes *)
Definition item_ok (i : item) : Prop :=
  match i with IEpoch e => 0 <= oh_tow (e_hdr e) < WEEK /\ (e_obs e = [] \/ sendable code_of e) | IMsg m => body_ok (i_sender m) (i_body m) end.
(** the first epoch with observations is not exactly at the start of a week *)
Definition first_epoch_ok (l : list item) : Prop :=
  forall pre e post, l = pre ++ IEpoch e :: post -> Forall (fun e' => e_obs e' = []) (epochs_of pre) -> e_obs e <> [] -> oh_tow (e_hdr e) <> 0.

(** ** the receiver's time at each frame of an item (None: not known) *)
Definition in_time (i : item) (t : option gtime) : Prop :=
  match i with
  | IEpoch e => exists ref, t = Some ref /\ in_step utc_offset leap (has_glo code_of (e_obs e)) (epoch_ms e) ref
  | IMsg m =>
      (forall ref, t = Some ref -> good_time utc_offset ref) /\
      match i_body m with
      | BBias _ _ _ _ _ => t <> None
      | BGlo s _ => exists ref, t = Some ref /\ utc_offset ref = leap /\ 2 * Z.abs (sg_toe_wn s * 604800000 + sg_toe s * 1000 - at_ms ref) < 86400000
      | _ => True
      end
  end.

(** ** what must come out *)
(** everything except the callback for base observations with an implausible time, which is not a message *)
Definition messages {O} (l : list (out pobs O)) : list (out pobs O) := filter (fun o => match o with OBaseInvalid _ => false | _ => true end) l.
Definition alone (r : rout) (g : list (out pobs rout)) : Prop := g = [OOther r].
Definition body_came (sd : Z) (b : body) (g : list (out pobs rout)) : Prop :=
  match b with
  | BObs _ | BIgnored => g = []
  | BBase x y z => exists x' y' z', alone (RSta (StaConv_model.SBasePos (back16 (stn12 sd)) x' y' z')) g /\ within_half_tenth x' x /\ within_half_tenth y' y /\ within_half_tenth z' z
  | BBias m a b c d => alone (RSta (StaConv_model.SGloBiases (back16 (stn12 sd)) (m mod 16) (announced m 3 a) (announced m 2 b) (announced m 1 c) (announced m 0 d))) g
  | BGps s => exists s', alone (REph (61568, EGps s')) g /\
      orbit_received 5 29 s' s /\ clock_received 31 43 55 s' s /\ fhalf (unit2 31) (s_tgd0 s') (s_tgd0 s) /\ s_sat s' = s_sat s /\ s_ura s' = s_ura s /\
      s_health s' = s_health s /\ s_iode s' = s_iode s /\ s_iodc s' = s_iodc s /\ (s_fit s = 14400 -> s_fit s' = 14400) /\
      s_toe s' = s_toe s /\ s_toe_wn s' = s_toe_wn s /\ s_toc s' = s_toc s /\ s_toc_wn s' = s_toc_wn s
  | BBds s => exists s', alone (REph (61568, EBds s')) g /\
      orbit_received 6 31 s' s /\ clock_received 33 50 66 s' s /\ fhalf tenth_ns (s_tgd0 s') (s_tgd0 s) /\ fhalf tenth_ns (s_tgd1 s') (s_tgd1 s) /\
      s_sat s' = s_sat s /\ s_ura s' = s_ura s /\ s_health s' = s_health s /\ s_iode s' = s_iode s /\ s_iodc s' = s_iodc s /\ s_fit s' = 10800 /\
      s_toe s' = s_toe s /\ s_toe_wn s' = s_toe_wn s /\ s_toc s' = s_toc s /\ s_toc_wn s' = s_toc_wn s
  | BGal s => exists s', alone (REph (61568, EGal s')) g /\
      orbit_received 5 29 s' s /\ clock_received 34 46 59 s' s /\ fhalf (unit2 32) (s_tgd0 s') (s_tgd0 s) /\ (s_source s = 0 -> fhalf (unit2 32) (s_tgd1 s') (s_tgd1 s)) /\
      s_sat s' = s_sat s /\ s_ura s' = s_ura s /\ s_health s' = s_health s /\ s_iode s' = s_iodc s /\ s_iodc s' = s_iodc s /\ s_source s' = s_source s /\
      s_toe s' = s_toe s /\ s_toe_wn s' = s_toe_wn s /\ s_toc s' = s_toc s /\ s_toc_wn s' = s_toc_wn s
  | BGlo s _ => exists s', alone (REph (61568, EGlo s')) g /\
      glo_received s' s /\ sg_sat s' = sg_sat s /\ sg_fcn s' = sg_fcn s /\ sg_ura s' = sg_ura s /\ sg_health s' = sg_health s /\ sg_toe_wn s' = sg_toe_wn s /\ sg_toe s' = sg_toe s /\
      (In (sg_fit s) [2400; 3300; 4200] -> sg_fit s' = sg_fit s)
  | BRaw ty p => if (ty =? 1025) && (len p <? 2) then g = [] else exists o, g = map (fun t => OOther (RTun t)) o /\ Tunnel_spec.carried sbp_ok (mksbp ty sd p) o
  end.
(** an epoch arrives as in C82 (MSM5; neither the sender nor, at first, the receiver knows GLONASS channels), an empty one not at all *)
Definition came (i : item) (g : list (out pobs rout)) : Prop :=
  match i with
  | IEpoch e => match e_obs e with [] => g = [] | _ => arrived carrier code_of 5 conv_fcns (repeat 255 29) masked e g end
  | IMsg m => body_came (i_sender m) (i_body m) g
  end.
End Spec.
