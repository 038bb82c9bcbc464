(** * Property C107: the multivariate samplers *)
From Coq Require Import Reals ZArith List Lra Lia.
From Verif Require Import Num RNum Outcome MCTools Skewed.
Import ListNotations.
Local Open Scope R_scope.
Local Open Scope list_scope.

(** ** Specification *)
(** An expectation for [n] independent standardised numbers: linear, 1 for the constant 1, mean 0, covariance 1 or 0. *)
Record standard (n : nat) (Ex : (list R -> R) -> R) : Prop := mkStandard {
  ex_ext : forall f h, (forall z, length z = n -> f z = h z) -> Ex f = Ex h;
  ex_lin : forall a f h, Ex (fun z => a * f z + h z) = a * Ex f + Ex h;
  ex_one : Ex (fun _ => 1) = 1;
  ex_mean : forall j, (j < n)%nat -> Ex (fun z => nth j z 0) = 0;
  ex_cov : forall j k, (j < n)%nat -> (k < n)%nat -> Ex (fun z => nth j z 0 * nth k z 0) = if Nat.eqb j k then 1 else 0 }.
Definition cov (Ex : (list R -> R) -> R) (f h : list R -> R) : R := Ex (fun z => (f z - Ex f) * (h z - Ex h)).

Fixpoint sum (n : nat) (f : nat -> R) : R := match n with O => 0 | S k => sum k f + f k end.
Definition entry (m : list (list R)) (i j : nat) : R := nth j (nth i m []) 0.
(** what Eigen has to provide: a square matrix whose product with its transpose is the given one *)
Definition is_factor (n : nat) (m c : list (list R)) : Prop :=
  length m = n /\ Forall (fun row => length row = n) m /\
  forall i k, (i < n)%nat -> (k < n)%nat -> sum n (fun j => entry m i j * entry m k j) = entry c i k.
(** a generator that delivers the numbers [z] *)
Definition draws (z : list R) : Engine R := mkEngine R unit (fun g => (0, g)) (fun n g => (firstn n z, g)).

(** ** Proofs *)
Lemma sum_ext n f h : (forall j, (j < n)%nat -> f j = h j) -> sum n f = sum n h.
Proof. induction n as [|n IH]; intros HF; cbn [sum]; [reflexivity|]. rewrite IH by (intros; apply HF; lia). rewrite HF by lia. reflexivity. Qed.
Lemma sum_shift n f : sum (S n) f = f 0%nat + sum n (fun j => f (S j)).
Proof. induction n as [|n IH]; [cbn; ring|]. change (sum (S (S n)) f) with (sum (S n) f + f (S n)). rewrite IH. cbn [sum]. ring. Qed.
Lemma sum_zero n f : (forall j, (j < n)%nat -> f j = 0) -> sum n f = 0.
Proof. induction n as [|n IH]; intros HF; cbn [sum]; [reflexivity|]. rewrite IH by (intros; apply HF; lia). rewrite HF by lia. ring. Qed.
Lemma sum_scal n a f : sum n (fun j => a * f j) = a * sum n f.
Proof. induction n as [|n IH]; cbn [sum]; [ring|]. rewrite IH. ring. Qed.
Lemma sum_one n f i : (i < n)%nat -> (forall j, (j < n)%nat -> j <> i -> f j = 0) -> sum n f = f i.
Proof.
  induction n as [|n IH]; intros HI HF; [lia|]. cbn [sum]. destruct (Nat.eq_dec i n) as [->|NE].
  - rewrite sum_zero by (intros; apply HF; lia). ring.
  - rewrite IH by (try lia; intros; apply HF; lia). rewrite (HF n) by lia. ring.
Qed.

Lemma dot_sum : forall a b, length a = length b -> dot a b = sum (length a) (fun j => nth j a 0 * nth j b 0).
Proof.
  induction a as [|x a IH]; intros [|y b] HL; try discriminate; [cbn; rnum; reflexivity|]. cbn [length]. rewrite sum_shift. cbn [nth dot].
  rewrite IH by (cbn in HL; lia). rnum. reflexivity.
Qed.
Lemma map2_nth {A B C} (f : A -> B -> C) da db dc : forall a b i, (i < length a)%nat -> (i < length b)%nat ->
  nth i (map2 f a b) dc = f (nth i a da) (nth i b db).
Proof. induction a as [|x a IH]; intros [|y b] [|i] HA HB; cbn in *; try lia; [reflexivity|]. apply IH; lia. Qed.
Lemma map2_length {A B C} (f : A -> B -> C) : forall a b, length a = length b -> length (map2 f a b) = length a.
Proof. induction a as [|x a IH]; intros [|y b] HL; cbn in *; try lia. rewrite IH; lia. Qed.
Lemma map_nth_in {A B} (f : A -> B) da db l i : (i < length l)%nat -> nth i (map f l) db = f (nth i l da).
Proof. intros HI. rewrite (nth_indep _ db (f da)) by (rewrite map_length; exact HI). apply map_nth. Qed.

Lemma diagonal_entry d i j : (i < length d)%nat -> (j < length d)%nat -> entry (diagonal d) i j = if Nat.eqb i j then nth i d 0 else 0.
Proof.
  intros HI HJ. unfold entry, diagonal. rewrite (map_nth_in _ 0%nat) by (rewrite seq_length; exact HI). rewrite seq_nth by exact HI.
  rewrite (map_nth_in _ 0%nat) by (rewrite seq_length; exact HJ). rewrite seq_nth by exact HJ. cbn [plus]. rnum. reflexivity.
Qed.
Lemma diagonal_length d : length (diagonal d) = length d.
Proof. unfold diagonal. rewrite map_length, seq_length. reflexivity. Qed.
Lemma diagonal_rows d i : (i < length d)%nat -> length (nth i (diagonal d) []) = length d.
Proof. intros HI. unfold diagonal. rewrite (map_nth_in _ 0%nat) by (rewrite seq_length; exact HI). rewrite map_length, seq_length. reflexivity. Qed.
Lemma mat_vec_nth (m : list (list R)) v i : (i < length m)%nat -> length (nth i m []) = length v ->
  nth i (mat_vec m v) 0 = sum (length v) (fun j => entry m i j * nth j v 0).
Proof.
  intros HI HL. unfold mat_vec. rewrite (map_nth_in _ []) by exact HI. rewrite dot_sum by exact HL. rewrite HL. reflexivity.
Qed.
Lemma diagonal_vec d v i : (i < length d)%nat -> length v = length d -> nth i (mat_vec (diagonal d) v) 0 = nth i d 0 * nth i v 0.
Proof.
  intros HI HL. rewrite mat_vec_nth; [|rewrite diagonal_length; exact HI|rewrite diagonal_rows by exact HI; auto]. rewrite HL.
  rewrite (sum_one _ _ i HI).
  - rewrite diagonal_entry, Nat.eqb_refl by exact HI. reflexivity.
  - intros j HJ NE. rewrite diagonal_entry by assumption. destruct (Nat.eqb_spec i j); [congruence|]. ring.
Qed.

Section Moments.
Variable n : nat.
Variable Ex : (list R -> R) -> R.
Hypothesis ST : standard n Ex.
Let ext := ex_ext n Ex ST.
Let lin := ex_lin n Ex ST.

Lemma ex_zero : Ex (fun _ => 0) = 0.
Proof. pose proof (lin 1 (fun _ => 1) (fun _ => -1)) as A. pose proof (lin (-1) (fun _ => 1) (fun _ => 0)) as B. pose proof (lin 1 (fun _ => 0) (fun _ => 0)) as C.
  rewrite (ext _ (fun _ => 0)) in C by (intros; ring). lra. Qed.
Lemma ex_const a : Ex (fun _ => a) = a.
Proof. pose proof (lin a (fun _ => 1) (fun _ => 0)) as A. rewrite (ext _ (fun _ => a)), ex_zero, (ex_one n Ex ST) in A by (intros; ring). lra. Qed.
Lemma ex_scal a f : Ex (fun z => a * f z) = a * Ex f.
Proof. pose proof (lin a f (fun _ => 0)) as A. rewrite (ext _ (fun z => a * f z)), ex_zero in A by (intros; ring). lra. Qed.
Lemma ex_plus f h : Ex (fun z => f z + h z) = Ex f + Ex h.
Proof. pose proof (lin 1 f h) as A. rewrite (ext _ (fun z => f z + h z)) in A by (intros; ring). lra. Qed.
Lemma ex_sum k (f : nat -> list R -> R) : Ex (fun z => sum k (fun j => f j z)) = sum k (fun j => Ex (f j)).
Proof. induction k as [|k IH]; cbn [sum]; [apply ex_zero|]. rewrite ex_plus, IH. reflexivity. Qed.
Lemma ex_linear a : Ex (fun z => sum n (fun j => a j * nth j z 0)) = 0.
Proof. rewrite ex_sum. apply sum_zero. intros j HJ. rewrite ex_scal, (ex_mean n Ex ST j HJ). ring. Qed.
Lemma ex_product a b : Ex (fun z => sum n (fun j => a j * nth j z 0) * sum n (fun k => b k * nth k z 0)) = sum n (fun j => a j * b j).
Proof.
  rewrite (ext _ (fun z => sum n (fun j => a j * sum n (fun k => b k * (nth j z 0 * nth k z 0))))).
  2:{ intros z _. rewrite Rmult_comm, <- sum_scal. apply sum_ext. intros j HJ.
      replace (sum n (fun k => b k * nth k z 0) * (a j * nth j z 0)) with (a j * (nth j z 0 * sum n (fun k => b k * nth k z 0))) by ring.
      rewrite <- sum_scal. f_equal. apply sum_ext. intros k HK. ring. }
  rewrite ex_sum. apply sum_ext. intros j HJ. rewrite ex_scal. f_equal. rewrite ex_sum.
  rewrite (sum_one n _ j HJ).
  - rewrite ex_scal, (ex_cov n Ex ST j j HJ HJ), Nat.eqb_refl. ring.
  - intros k HK NE. rewrite ex_scal, (ex_cov n Ex ST j k HJ HK). destruct (Nat.eqb_spec j k); [congruence|]. ring.
Qed.
(** mean and covariance of affine functions *)
Lemma ex_affine c a : Ex (fun z => c + sum n (fun j => a j * nth j z 0)) = c.
Proof. rewrite ex_plus, ex_const, ex_linear. ring. Qed.
Lemma cov_affine f h c a d b : (forall z, length z = n -> f z = c + sum n (fun j => a j * nth j z 0)) -> (forall z, length z = n -> h z = d + sum n (fun j => b j * nth j z 0)) ->
  Ex f = c /\ cov Ex f h = sum n (fun j => a j * b j).
Proof.
  intros HF HG. assert (MF : Ex f = c) by (rewrite (ext _ _ HF); apply ex_affine). assert (MG : Ex h = d) by (rewrite (ext _ _ HG); apply ex_affine).
  split; [exact MF|]. unfold cov. rewrite MF, MG, <- ex_product. apply ext. intros z HZ. rewrite (HF z HZ), (HG z HZ). ring.
Qed.
End Moments.

Lemma draws_norm z n : length z = n -> sample_norm (draws z) 0 1 n tt = (z, tt).
Proof.
  intros <-. unfold sample_norm, draws. cbn [e_normals]. rewrite firstn_all. f_equal. rewrite <- (map_id z) at 2. apply map_ext. intros x. rnum. ring.
Qed.
Lemma norm_nd_nth factor mean covar z i n : length mean = n -> length z = n -> is_factor n (factor covar) covar -> (i < n)%nat ->
  nth i (fst (rand_norm_nd (draws z) factor mean covar tt)) 0 = nth i mean 0 + sum n (fun j => entry (factor covar) i j * nth j z 0) /\
  length (fst (rand_norm_nd (draws z) factor mean covar tt)) = n.
Proof.
  intros HM HZ (L1 & L2 & _) HI. unfold rand_norm_nd. assert (D := draws_norm z n HZ). unfold n0, n1 in *.
  rewrite HM. replace (sample_norm (draws z) (nlit 0 0) (nlit 1 0) n tt) with (z, tt) by (rewrite <- D; f_equal; rlit; lra). cbn [fst].
  assert (LM : length (mat_vec (factor covar) z) = n) by (unfold mat_vec; rewrite map_length; exact L1).
  split; [|rewrite map2_length; congruence]. rewrite (map2_nth _ 0 0) by congruence.
  rewrite mat_vec_nth; [rewrite HZ; reflexivity|congruence|]. rewrite Forall_forall in L2. rewrite HZ. apply L2. apply nth_In. congruence.
Qed.

(** ** C107 *)
(** The multivariate normal sampler has the mean and the covariance that it is asked for. *)
Theorem C107_normal : forall factor (mean : list R) covar n Ex,
  length mean = n -> is_factor n (factor covar) covar -> standard n Ex ->
  let comp i z := nth i (fst (rand_norm_nd (draws z) factor mean covar tt)) 0 in
  forall i k, (i < n)%nat -> (k < n)%nat -> Ex (comp i) = nth i mean 0 /\ cov Ex (comp i) (comp k) = entry covar i k.
Proof.
  intros factor mean covar n Ex HM HF ST comp i k HI HK.
  destruct (cov_affine n Ex ST (comp i) (comp k) (nth i mean 0) (entry (factor covar) i) (nth k mean 0) (entry (factor covar) k)) as [A B].
  - intros z HZ. apply (norm_nd_nth factor mean covar z i n HM HZ HF HI).
  - intros z HZ. apply (norm_nd_nth factor mean covar z k n HM HZ HF HK).
  - split; [exact A|]. rewrite B. destruct HF as (_ & _ & HF). apply HF; assumption.
Qed.

Notation skewed z factor := (rand_sinh_arcsinh_nd (draws z) sinh arcsinh factor).

Lemma sinh_sum x s : sinh (arcsinh x + s) = x * cosh s + sqrt (1 + x ^ 2) * sinh s.
Proof.
  assert (CH : cosh (arcsinh x) = sqrt (1 + x ^ 2)).
  { assert (P : 0 < cosh (arcsinh x)). { unfold cosh. pose proof (exp_pos (arcsinh x)). pose proof (exp_pos (- arcsinh x)). lra. }
    assert (Q : cosh (arcsinh x) * cosh (arcsinh x) = 1 + x ^ 2).
    { rewrite <- (sinh_arcsinh x) at 3. unfold cosh, sinh. pose proof (exp_plus (arcsinh x) (- arcsinh x)) as EP. rewrite Rplus_opp_r, exp_0 in EP.
      cbn [pow]. field_simplify. nra. }
    rewrite <- Q. symmetry. apply sqrt_square. lra. }
  rewrite <- CH. rewrite <- (sinh_arcsinh x) at 2. unfold sinh, cosh. rewrite Ropp_plus_distr, !exp_plus. field.
Qed.

(** Every component: the requested mean plus the width times the skewed normal number, which itself already contains the mean. *)
Lemma skewed_nth factor (mean covar skew z : list R) n i : length mean = n -> length covar = n -> length skew = n -> length z = n ->
  is_factor n (factor (diagonal covar)) (diagonal covar) -> (i < n)%nat ->
  let x := nth i mean 0 + sum n (fun j => entry (factor (diagonal covar)) i j * nth j z 0) in
  nth i (fst (skewed z factor mean covar skew tt)) 0 = nth i mean 0 + nth i covar 0 * sinh (arcsinh x + nth i skew 0).
Proof.
  intros HM HC HS HZ HF HI x. unfold rand_sinh_arcsinh_nd.
  destruct (norm_nd_nth factor mean (diagonal covar) z i n HM HZ HF HI) as [N L].
  destruct (rand_norm_nd (draws z) factor mean (diagonal covar) tt) as [smp []]. cbn [fst] in N, L |- *.
  set (sk := map2 _ smp skew). assert (LK : length sk = n) by (unfold sk; rewrite map2_length; congruence).
  assert (LD : length (mat_vec (diagonal covar) sk) = n) by (unfold mat_vec; rewrite map_length, diagonal_length; exact HC).
  rewrite (map2_nth _ 0 0) by (rewrite ?map_length; congruence). rewrite (map_nth_in _ 0) by congruence.
  rewrite diagonal_vec by congruence. unfold sk. rewrite (map2_nth _ 0 0) by congruence. rewrite N. fold x. rnum.
  rewrite !sinh_arcsinh. assert (N2 : (n2 : R) = 2) by (unfold n2; rlit; lra). try rewrite N2. field.
Qed.

(** With any skew, in closed form; the skew moves the component in its own direction. *)
Theorem C107_component : forall factor (mean covar skew z : list R) n i,
  length mean = n -> length covar = n -> length skew = n -> length z = n ->
  is_factor n (factor (diagonal covar)) (diagonal covar) -> (i < n)%nat ->
  let x := nth i (fst (rand_norm_nd (draws z) factor mean (diagonal covar) tt)) 0 in
  nth i (fst (skewed z factor mean covar skew tt)) 0 =
    nth i mean 0 + nth i covar 0 * (x * cosh (nth i skew 0) + sqrt (1 + x ^ 2) * sinh (nth i skew 0)) /\
  (forall skew', length skew' = n -> 0 < nth i covar 0 -> nth i skew 0 < nth i skew' 0 ->
     nth i (fst (skewed z factor mean covar skew tt)) 0 < nth i (fst (skewed z factor mean covar skew' tt)) 0) /\
  (nth i covar 0 = 0 -> nth i (fst (skewed z factor mean covar skew tt)) 0 = nth i mean 0).
Proof.
  intros factor mean covar skew z n i HM HC HS HZ HF HI x. unfold x. rewrite (proj1 (norm_nd_nth factor mean (diagonal covar) z i n HM HZ HF HI)).
  rewrite (skewed_nth factor mean covar skew z n i HM HC HS HZ HF HI). cbv zeta. rewrite <- sinh_sum. split; [reflexivity|]. split.
  - intros skew' HS' HP HL. rewrite (skewed_nth factor mean covar skew' z n i HM HC HS' HZ HF HI). cbv zeta.
    apply Rplus_lt_compat_l. apply Rmult_lt_compat_l; [exact HP|]. apply sinh_lt. lra.
  - intros ->. ring.
Qed.

(** Without skew: the component has mean m(1 + c) and variance c^3, where m and c are the requested ones. *)
Theorem C107_without_skew : forall factor (mean covar : list R) n Ex,
  length mean = n -> length covar = n -> is_factor n (factor (diagonal covar)) (diagonal covar) -> standard n Ex ->
  let comp i z := nth i (fst (skewed z factor mean covar (repeat 0 n) tt)) 0 in
  forall i k, (i < n)%nat -> (k < n)%nat ->
    Ex (comp i) = nth i mean 0 * (1 + nth i covar 0) /\
    cov Ex (comp i) (comp k) = (if Nat.eqb i k then nth i covar 0 ^ 3 else 0).
Proof.
  intros factor mean covar n Ex HM HC HF ST comp i k HI HK.
  assert (HA : forall i z, (i < n)%nat -> length z = n ->
     comp i z = nth i mean 0 * (1 + nth i covar 0) + sum n (fun j => nth i covar 0 * entry (factor (diagonal covar)) i j * nth j z 0)).
  { intros i0 z HI0 HZ. unfold comp. rewrite (skewed_nth factor mean covar _ z n i0 HM HC (repeat_length _ _) HZ HF HI0). cbv zeta.
    rewrite nth_repeat, Rplus_0_r, sinh_arcsinh.
    rewrite (sum_ext n (fun j => nth i0 covar 0 * entry (factor (diagonal covar)) i0 j * nth j z 0)
       (fun j => nth i0 covar 0 * (entry (factor (diagonal covar)) i0 j * nth j z 0))) by (intros; ring). rewrite sum_scal. ring. }
  destruct (cov_affine n Ex ST (comp i) (comp k) _ _ _ _ (fun z => HA i z HI) (fun z => HA k z HK)) as [A B].
  split; [exact A|]. rewrite B.
  rewrite (sum_ext n _ (fun j => nth i covar 0 * nth k covar 0 * (entry (factor (diagonal covar)) i j * entry (factor (diagonal covar)) k j))) by (intros; ring).
  rewrite sum_scal. destruct HF as (_ & _ & HF). rewrite HF, diagonal_entry by congruence.
  destruct (Nat.eqb_spec i k) as [->|NE]; ring.
Qed.

(** So these are the requested mean and variance only in the two cases c = 0 and m = 0, c = 1. *)
Theorem C107_requested_refuted : forall factor (mean covar : list R) n Ex i,
  length mean = n -> length covar = n -> is_factor n (factor (diagonal covar)) (diagonal covar) -> standard n Ex -> (i < n)%nat -> 0 <= nth i covar 0 ->
  let comp z := nth i (fst (skewed z factor mean covar (repeat 0 n) tt)) 0 in
  (Ex comp = nth i mean 0 /\ cov Ex comp comp = nth i covar 0) <-> (nth i covar 0 = 0 \/ (nth i mean 0 = 0 /\ nth i covar 0 = 1)).
Proof.
  intros factor mean covar n Ex i HM HC HF ST HI HP comp.
  destruct (C107_without_skew factor mean covar n Ex HM HC HF ST i i HI HI) as [A B]. rewrite Nat.eqb_refl in B.
  change (Ex comp = nth i mean 0 * (1 + nth i covar 0)) in A. change (cov Ex comp comp = nth i covar 0 ^ 3) in B. rewrite A, B.
  set (c := nth i covar 0) in *. set (m := nth i mean 0). split.
  - intros [H1 H2]. assert (HC3 : c * ((c - 1) * (c + 1)) = 0) by (cbn [pow] in H2; lra).
    apply Rmult_integral in HC3. destruct HC3 as [HC3|HC3]; [left; exact HC3|]. right.
    apply Rmult_integral in HC3. destruct HC3 as [HC3|HC3]; [|lra]. assert (c = 1) by lra. split; [nra|lra].
  - intros [->|[-> ->]]; split; ring.
Qed.

Print Assumptions C107_normal.
Print Assumptions C107_component.
Print Assumptions C107_without_skew.
Print Assumptions C107_requested_refuted.

(** One component, width 4: the root is the factor, and the average over +1 and -1 is an expectation.  Mean 10 and variance 4 are
    requested; the samples have mean 50 and variance 64. *)
Definition ex_average (f : list R -> R) : R := (f [1] + f [-1]) / 2.
Definition ex_root (c : list (list R)) : list (list R) := [[2]].
Example C107_case : is_factor 1 (ex_root (diagonal [4])) (diagonal [4]) /\ standard 1 ex_average /\
  (let comp z := nth 0 (fst (skewed z ex_root [10] [4] [0] tt)) 0 in ex_average comp = 50 /\ cov ex_average comp comp = 64).
Proof.
  assert (F : is_factor 1 (ex_root (diagonal [4])) (diagonal [4])).
  { split; [reflexivity|]. split; [constructor; [reflexivity|constructor]|]. intros i k HI HK. assert (i = 0%nat) by lia. assert (k = 0%nat) by lia. subst.
    rewrite diagonal_entry by (cbn; lia). cbn. ring. }
  assert (S : standard 1 ex_average).
  { constructor; unfold ex_average.
    - intros f h HE. rewrite !HE by reflexivity. reflexivity.
    - intros a f h. field.
    - field.
    - intros j HJ. assert (j = 0%nat) by lia. subst. cbn. field.
    - intros j k HJ HK. assert (j = 0%nat) by lia. assert (k = 0%nat) by lia. subst. cbn. field. }
  split; [exact F|]. split; [exact S|].
  destruct (C107_without_skew ex_root [10] [4] 1 ex_average eq_refl eq_refl F S 0%nat 0%nat) as [A B]; [lia|lia|]. cbn [repeat] in A, B.
  intros comp. split; [etransitivity; [exact A|]|etransitivity; [exact B|]]; cbn; lra.
Qed.
