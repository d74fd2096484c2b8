(** What the inertial/odometry part of the UBX converter is supposed to output: independent of the handlers of Esf_model.v
    (only the record types, the output constructors and the numeric conversions odo_tow, wheel_time, imu_time, scale_* are shared; those
    are characterised separately). *)
From Verif Require Import Base UbxVar_model Esf_model.
Open Scope Z_scope.

(** type and 24-bit value of an ESF data word: bits 24..29 and 0..23 *)
Definition item_type (d : Z) : Z := (d / 2 ^ 24) mod 64.
Definition item_val (d : Z) : Z := d mod 2 ^ 24.
(** two's complement reading of a 24-bit field *)
Definition signed24 (v : Z) : Z := if v <? 2 ^ 23 then v else v - 2 ^ 24.
(** two's complement reading of a 32-bit counter *)
Definition signed32 (v : Z) : Z := (v + 2 ^ 31) mod 2 ^ 32 - 2 ^ 31.

(** the odometry items of an ESF-MEAS message: the first numMeas data words whose type is one of the wheel tick types 6..10 or
    the speed type 11 *)
Definition odo_items (m : esf_meas) : list Z :=
  filter (fun d => (6 <=? item_type d) && (item_type d <=? 11)) (take ((em_flags m / 2 ^ 11) mod 32) (em_data m)).
Definition calibrated (m : esf_meas) : bool := (em_flags m / 8) mod 2 =? 1.
Definition tag (m : esf_meas) : Z := match em_calib m with Some c => c | None => 0 end.
(** the (time tag, item) pairs that are converted: messages without calibrated time tag or without odometry items are ignored; a message
    whose tag is not 0..1000 ms after the tag of the previous converted message is dropped and the sequence restarts with the next *)
Fixpoint accepted (prev : option Z) (h : list esf_meas) : list (Z * Z) :=
  match h with
  | [] => []
  | m :: r =>
      match calibrated m, odo_items m with
      | false, _ | _, [] => accepted prev r
      | true, items =>
          if match prev with None => true | Some p => (0 <=? tag m - p) && (tag m - p <=? 1000) end
          then map (fun d => (tag m, d)) items ++ accepted (Some (tag m)) r
          else accepted None r
      end
  end.
(** wheel tick samples (reverse flag, 22-bit count) and the accumulated count: the first count plus the signed increments *)
Definition tick_of (d : Z) : bool * Z := (Z.odd (d / 2 ^ 23), d mod 2 ^ 22).
Fixpoint tick_increments (c : Z) (l : list (bool * Z)) : Z :=
  match l with [] => 0 | (rev, c') :: r => (if rev then c - c' else c' - c) + tick_increments c' r end.
Definition tick_sum (l : list (bool * Z)) : Z := match l with [] => 0 | (_, c) :: r => c + tick_increments c r end.
(** SBP wheel numbers: 0 right rear or single, 1 left rear, 2 left front, 3 right front *)
Definition wheel (t : Z) : Z := match t with 6 => 2 | 7 => 3 | 8 => 1 | _ => 0 end.
(** the messages for the accepted items; [ticks] are the tick samples so far *)
Fixpoint expected_odo (ticks : list (bool * Z)) (l : list (Z * Z)) : list esf_out :=
  match l with
  | [] => []
  | (t, d) :: r =>
      if item_type d =? 11
      then Odometry (odo_tow t) (2 + 8 * 3 + 32 * (item_val d / 2 ^ 23)) (signed24 (item_val d)) :: expected_odo ticks r
      else let ticks' := ticks ++ [tick_of d] in
           Wheeltick (wheel_time t) 2 (wheel (item_type d)) (signed32 (tick_sum ticks')) :: expected_odo ticks' r
  end.

(** a history of ESF messages and what the converter outputs for it *)
Definition esf_step (s : esf_state) (x : esf_meas + esf_raw) : esf_state * list esf_out :=
  match x with inl m => handle_esf_meas s m | inr r => handle_esf_raw s r end.
Fixpoint esf_run (s : esf_state) (h : list (esf_meas + esf_raw)) : esf_state * list esf_out :=
  match h with
  | [] => (s, [])
  | x :: r => let '(s1, o1) := esf_step s x in let '(s2, o2) := esf_run s1 r in (s2, o1 ++ o2)
  end.
Definition meas_of (h : list (esf_meas + esf_raw)) : list esf_meas := flat_map (fun x => match x with inl m => [m] | _ => [] end) h.
Definition raw_of (h : list (esf_meas + esf_raw)) : list esf_raw := flat_map (fun x => match x with inr m => [m] | _ => [] end) h.
Definition is_odo_out (o : esf_out) : bool := match o with Odometry _ _ _ | Wheeltick _ _ _ _ => true | _ => false end.
Definition is_imu_raw (o : esf_out) : bool := match o with ImuRaw _ _ _ _ _ _ _ => true | _ => false end.

(** ESF-RAW: type (8 bits) of a data word, the samples of one axis of a message in order *)
Definition raw_type (d : Z) : Z := (d / 2 ^ 24) mod 256.
Definition axes : list Z := [16; 17; 18; 14; 13; 5].   (* accelerometer x y z, gyroscope x y z *)
Definition axis (t : Z) (items : list (Z * Z)) : list Z :=
  map (fun p => signed24 (item_val (fst p))) (filter (fun p => raw_type (fst p) =? t) items).
Definition imu_items (items : list (Z * Z)) : list (Z * Z) := filter (fun p => existsb (Z.eqb (raw_type (fst p))) axes) items.
(** the unwrapped millisecond clock of the inertial data: a message whose 32-bit tag is not 0..1000 ms (mod 2^32) after the clock is dropped
    and restarts the clock *)
Definition clock_step (c : option Z) (m : esf_raw) : option Z :=
  match imu_items (er_data m) with
  | [] => c
  | _ => match c with
         | None => Some (er_msss m)
         | Some t => let d := (er_msss m - t) mod 2 ^ 32 in if d <=? 1000 then Some (t + d) else None
         end
  end.
(** the k-th inertial message made of [items] at clock [c] with first sensor time [ts0]: it carries the k-th sample of every axis and is
    stamped with the sensor time of the sample that completed it *)
Definition kth_imu (c ts0 : Z) (items : list (Z * Z)) (k : nat) (o : esf_out) : Prop :=
  exists pre d ts post, items = pre ++ (d, ts) :: post /\
    (forall t, In t axes -> length (axis t (pre ++ [(d, ts)])) = S k) /\ In (raw_type d) axes /\
    o = ImuRaw (imu_time c (sensor_diff ts ts0))
          (scale_acc (nth k (axis 16 items) 0)) (scale_acc (nth k (axis 17 items) 0)) (scale_acc (nth k (axis 18 items) 0))
          (scale_gyr (nth k (axis 14 items) 0)) (scale_gyr (nth k (axis 13 items) 0)) (scale_gyr (nth k (axis 5 items) 0)).
(** every 20th inertial message is preceded by one auxiliary message *)
Fixpoint aux_ok (n : Z) (l : list esf_out) : Prop :=
  match l with
  | [] => True
  | ImuAux _ :: ImuRaw _ _ _ _ _ _ _ :: r => n mod 20 = 0 /\ aux_ok (n + 1) r
  | ImuAux _ :: _ => False
  | ImuRaw _ _ _ _ _ _ _ :: r => n mod 20 <> 0 /\ aux_ok (n + 1) r
  | _ :: r => aux_ok n r
  end.
