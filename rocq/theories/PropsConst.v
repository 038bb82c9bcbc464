(** * The units of the program and the constants of nature (C121) *)
From Coq Require Import String ZArith Reals Lra Lia Bool Psatz.
From Coq Require Import Machin Ratan.
From Verif Require Import Num RNum Outcome Units.
Local Open Scope R_scope.

(** [close e x y]: the relative difference of [x] from [y] is at most [e] *)
Definition close (e x y : R) : Prop := Rabs (x - y) <= e * Rabs y.

(** ** Pi, by the series of the arctangent (standard library) *)
Lemma pi_bounds : 3141592653589 / 10 ^ 12 <= PI <= 3141592653590 / 10 ^ 12.
Proof.
  pose proof (PI_2_3_7_ineq 6) as [A B]. change (S (2 * 6)) with 13%nat in A. change (2 * 6)%nat with 12%nat in B.
  cbn [sum_f_R0] in A, B. unfold tg_alt, PI_2_3_7_tg, Ratan_seq in A, B.
  rewrite !INR_IZR_INZ in A, B. cbn [Z.of_nat Nat.mul Nat.add Pos.of_succ_nat Pos.succ] in A, B.
  change (Z.of_nat (2 * 13 + 1)) with 27%Z in A. try (rewrite (INR_IZR_INZ 27) in A; change (Z.of_nat 27) with 27%Z in A). lra.
Qed.

Lemma close_mul e x y k : 0 < k -> Rabs (x * k - y * k) <= e * Rabs (y * k) -> close e x y.
Proof.
  intros K H. unfold close. replace (x * k - y * k) with ((x - y) * k) in H by ring. rewrite !Rabs_mult, (Rabs_pos_eq k) in H by lra.
  apply Rmult_le_reg_r with k; [exact K|]. lra.
Qed.

(** The literals: hbar times the Schwinger field times the charge is m^2 c^3; the Compton wavelength is 2 pi hbar / (m c); alpha is
    e^2 / (4 pi eps0 hbar c); pi is pi. *)
Theorem C121_constants_consistent :
  close (3 / 10 ^ 8) (si_eSchw * si_qe * si_hBar) (si_me * si_me * (si_c * si_c * si_c)) /\
  close (1 / 10 ^ 9) (si_lComp * si_me * si_c) (2 * PI * si_hBar) /\
  close (1 / 10 ^ 9) (c_alpha * (4 * PI * si_eps0 * si_hBar * si_c)) (si_qe * si_qe) /\
  Rabs (c_pi - PI) <= 1 / 10 ^ 12.
Proof.
  pose proof pi_bounds as PB. unfold close, si_eSchw, si_qe, si_hBar, si_me, si_c, si_lComp, c_alpha, si_eps0, c_pi. rlit.
  split; [|split; [|split]].
  - rewrite (Rabs_pos_eq (_ * _)) by lra. apply Rabs_le. lra.
  - rewrite (Rabs_pos_eq (2 * PI * _)) by lra. apply Rabs_le. lra.
  - rewrite (Rabs_pos_eq (_ * _)) by lra. apply Rabs_le. lra.
  - apply Rabs_le. lra.
Qed.

(** The unit system: the length unit is the reduced Compton wavelength, time unit times energy unit is hbar, and the field unit accelerates a charge from rest
    to the momentum unit in one time unit (exactly). *)
Theorem C121_natural_units : forall name (u : units R), units_system name = Ok u ->
  close (3 / 10 ^ 8) (si_hBar / (si_me * si_c)) (ref_length u) /\
  close (3 / 10 ^ 8) si_hBar (ref_time u * ref_energy u) /\
  si_qe * ref_eField u * ref_time u = ref_momentum u /\
  si_qe * ref_bField u * ref_time u * si_c = ref_momentum u.
Proof.
  intros name u E. unfold units_system in E. destruct (_ || _)%bool; [|discriminate]. injection E as <-.
  unfold si_units. cbv zeta. cbn [ref_length ref_time ref_energy ref_eField ref_momentum ref_bField]. rnum.
  assert (P : 0 < (si_eSchw : R) /\ 0 < (si_qe : R) /\ 0 < (si_me : R) /\ 0 < (si_c : R)) by (unfold si_eSchw, si_qe, si_me, si_c; rlit; lra).
  destruct P as (P1 & P2 & P3 & P4).
  assert (H : Rabs (si_hBar * (si_eSchw * si_qe) - si_me * si_me * (si_c * si_c * si_c)) <= 3 / 10 ^ 8 * (si_me * si_me * (si_c * si_c * si_c))).
  { unfold si_eSchw, si_qe, si_me, si_c, si_hBar. rlit. apply Rabs_le. lra. }
  set (hb := si_hBar : R) in *. set (es := si_eSchw : R) in *. set (q := si_qe : R) in *. set (m := si_me : R) in *. set (c := si_c : R) in *. clearbody hb es q m c.
  assert (Q : 0 < m * c) by (apply Rmult_lt_0_compat; lra). assert (Q2 : 0 < es * q) by (apply Rmult_lt_0_compat; lra).
  assert (Q3 : 0 < m * m * (c * c * c)) by (repeat apply Rmult_lt_0_compat; lra).
  split; [|split; [|split]].
  - apply close_mul with (k := es * q * (m * c)); [apply Rmult_lt_0_compat; lra|].
    replace (hb / (m * c) * (es * q * (m * c))) with (hb * (es * q)) by (field; lra).
    replace (c / (es * q / (m * c)) * (es * q * (m * c))) with (m * m * (c * c * c)) by (field; lra).
    rewrite (Rabs_pos_eq (m * _ * _)) by lra. exact H.
  - apply close_mul with (k := es * q); [lra|].
    replace (1 / (es * q / (m * c)) * (m * c * c) * (es * q)) with (m * m * (c * c * c)) by (field; lra).
    rewrite (Rabs_pos_eq (m * _ * _)) by lra. exact H.
  - field. lra.
  - field. lra.
Qed.

(** Geant's units: a nanosecond, a millimetre and a mega-electronvolt in the units of the program, so that 299.792458 mm per ns is the speed 1. *)
Theorem C121_geant_units : forall name (u : units R), units_system name = Ok u ->
  g4_time u * ref_time u = 1 / 10 ^ 9 /\ g4_length u * ref_length u = 1 / 10 ^ 3 /\ g4_energy u * ref_energy u = 10 ^ 6 * si_qe /\
  299792458 / 10 ^ 6 * g4_length u / g4_time u = 1.
Proof.
  intros name u E. unfold units_system in E. destruct (_ || _)%bool; [|discriminate]. injection E as <-.
  unfold si_units. cbv zeta. cbn [ref_length ref_time ref_energy g4_time g4_length g4_energy]. rnum.
  assert (P : 0 < (si_eSchw : R) /\ 0 < (si_qe : R) /\ 0 < (si_me : R) /\ 0 < (si_c : R)) by (unfold si_eSchw, si_qe, si_me, si_c; rlit; lra).
  destruct P as (P1 & P2 & P3 & P4). assert (EC : (si_c : R) = 299792458) by (unfold si_c; rlit; lra).
  set (es := si_eSchw) in *. set (q := si_qe) in *. set (m := si_me) in *. set (c := si_c) in *. rlit.
  split; [field; lra|]. split; [field; lra|]. split; [field; lra|]. rewrite <- EC. field. lra.
Qed.

Print Assumptions C121_constants_consistent. Print Assumptions C121_natural_units. Print Assumptions C121_geant_units.

Example C121_case : exists u : units R, units_system "SI" = Ok u /\ 0 < ref_length u < 386159268 / 10 ^ 21 /\ 386159248 / 10 ^ 21 < ref_length u.
Proof.
  eexists. split; [reflexivity|]. unfold si_units. cbv zeta. cbn [ref_length]. rnum.
  assert (E : si_c / (si_eSchw * si_qe / (si_me * si_c)) = si_me * (si_c * si_c) / (si_eSchw * si_qe)).
  { field. unfold si_eSchw, si_qe, si_me, si_c. rlit. lra. }
  rewrite E. unfold si_eSchw, si_qe, si_me, si_c. rlit. lra.
Qed.
