(** The double nearest to pi, from the standard library's Machin-like series. *)
From Coq Require Import Reals Lra Machin.
Open Scope R_scope.
Lemma pi_close : Rabs (PI - 7074237752028440 / 2251799813685248) <= / 4503599627370496.
Proof.
  pose proof (PI_2_3_7_ineq 8) as [A B]. change (S (2 * 8))%nat with 17%nat in A. change (2 * 8)%nat with 16%nat in B.
  assert (P3 : forall n, (/ 3) ^ n = / IZR (3 ^ Z.of_nat n)) by (intros; rewrite <- pow_IZR, pow_inv; reflexivity).
  assert (P7 : forall n, (/ 7) ^ n = / IZR (7 ^ Z.of_nat n)) by (intros; rewrite <- pow_IZR, pow_inv; reflexivity).
  assert (P1 : forall n, (-1) ^ n = IZR ((-1) ^ Z.of_nat n)) by (intros; rewrite <- pow_IZR; reflexivity).
  assert (T : forall n, tg_alt PI_2_3_7_tg n = IZR ((-1) ^ Z.of_nat n) * (2 * (/ IZR (3 ^ Z.of_nat (2 * n + 1)) / IZR (Z.of_nat (2 * n + 1))) + / IZR (7 ^ Z.of_nat (2 * n + 1)) / IZR (Z.of_nat (2 * n + 1)))).
  { intros n. unfold tg_alt, PI_2_3_7_tg, Ratan_seq. rewrite P1, P3, P7, INR_IZR_INZ. reflexivity. }
  cbn [sum_f_R0] in A, B. rewrite !T in A. rewrite !T in B. clear P3 P7 P1 T.
  repeat match type of A with context [IZR ?z] => lazymatch z with Z.pos _ => fail | Z.neg _ => fail | Z0 => fail | _ => let v := eval vm_compute in z in change (IZR z) with (IZR v) in A end end.
  repeat match type of B with context [IZR ?z] => lazymatch z with Z.pos _ => fail | Z.neg _ => fail | Z0 => fail | _ => let v := eval vm_compute in z in change (IZR z) with (IZR v) in B end end.
  apply Rabs_le. lra.
Qed.
