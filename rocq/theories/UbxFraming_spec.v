(** What a UBX frame is and which streams carry which frames, independently of the reader. *)
From Verif Require Import Base UbxFraming_model.

(** Fletcher-8: sum of the bytes, and sum of the running sums, modulo 256 *)
Fixpoint weighted (l : list Z) : Z := match l with [] => 0 | b :: r => (1 + len r) * b + weighted r end.
Definition fletcher (l : list Z) : list Z := [fold_right Z.add 0 l mod 256; weighted l mod 256].
(** class, id, 16-bit little-endian length, payload of that length (at most 4090 bytes) *)
Definition ubx_body (f : list Z) : Prop :=
  exists cls id lo hi payload, f = cls :: id :: lo :: hi :: payload /\ bytes f /\ len payload = lo + 256 * hi /\ len payload <= 4090.
(** a frame on the wire *)
Definition on_wire (f : list Z) : list Z := 0xB5 :: 0x62 :: f ++ fletcher f.
(** a stream that contains the frames [fs] in this order, without overlap, with anything in between *)
Inductive contains : list (list Z) -> list Z -> Prop :=
| ct_nil g : contains [] g
| ct_cons g f fs s : ubx_body f -> contains fs s -> contains (f :: fs) (g ++ on_wire f ++ s).
(** a gap: bytes in which B5 62 does not occur *)
Fixpoint no_sync (l : list Z) : Prop :=
  match l with
  | a :: r => match r with b :: _ => ~ (a = 0xB5 /\ b = 0x62) | [] => True end /\ no_sync r
  | [] => True
  end.
(** streams made of the frames [fs] separated and surrounded by gaps *)
Inductive separated : list (list Z) -> list Z -> Prop :=
| sp_nil g : no_sync g -> bytes g -> separated [] g
| sp_cons g f fs s : no_sync g -> bytes g -> ubx_body f -> separated fs s -> separated (f :: fs) (g ++ on_wire f ++ s).
(** the stream delivers data until it ends *)
Definition data_only (rs : list read) : Prop := Forall (fun r => exists l, r = RData l) rs.
(** the frames among the results of successive calls *)
Definition frames_of (rs : list fres) : list (list Z) := flat_map (fun r => match r with FFrame f => [f] | _ => [] end) rs.
