(** * What the shipped table files contain (computed), and what loading them gives *)
From Coq Require Import String ZArith Reals Lra Psatz List Bool Ascii Lia.
From Verif Require Import Num RNum Outcome Text SpecNumeral NumeralFacts SpecLoad SpecTable Process Tables TablesFacts PropsLoad
  Shipped ShippedData ShippedFacts.
Import ListNotations.
Local Open Scope Z_scope.

Definition whole (t : text) : list dec * text := numbers_of t t.
Definition is_count (n : Z) (d : dec) : bool := d_plain d && (d_man d =? n).
Definition between (a b : dec) (d : dec) : bool := dle a d && dle d b.
Definition deq (a b : dec) : bool := dle a b && dle b a.

(** ** hsokolov.table *)
Definition h_good (l : list (dec * dec)) : bool :=
  let xs := map fst l in let ys := map snd l in
  chain dlt xs && deq (dnth xs 0) (dlit (-5) 0) && deq (dnth xs 499) (dlit 1 0) && deq (dnth xs 1) (dlit (-4987975951903808) (-15)) &&
  forallb (between (dlit 3459150912836859 (-16)) (dlit 7189960759048358 (-16))) ys && deq (dnth ys 0) (dlit 7189960759048358 (-16)) && deq (dnth ys 499) (dlit 3459150912836859 (-16)) &&
  deq (dnth ys 1) (dlit 7189959234513367 (-16)).
Definition h_check (p : list dec * text) : bool :=
  match p with
  | (c :: l, r) => is_count 500 c && (length l =? 2 * 500)%nat && forallb blank r && h_good (pair_up l)
  | _ => false
  end.
Lemma h_checked : h_check (whole h_text) = true.
Proof. vm_cast_no_check (eq_refl true). Qed.

(** ** ksi_sokolov.table *)
Definition row_good (r : list dec) : bool :=
  (length r =? 100)%nat && chain dle r && dlt (dnth r 0) (dnth r 1) && deq (dnth r 99) (dlit 1 0) && between (dlit 4 (-3)) (dlit 1 (-2)) (dnth r 0).
(** How far the first two rows are apart: everywhere below 1 - 1e-16 the second row's straight lines, read as a function
    from the probability to the (fractional) column, are at least 1e-9 columns ahead of the first row's, and at 0 they are at
    column -11 or above. Below the first
    entry the line of the first two columns is continued, as the interpolation does. All numbers in units of 1e-30. *)
Definition scaled (d : dec) : Z := d_int d * 10 ^ (d_exp d + 30).
Fixpoint steps (k : Z) (l : list Z) : list (Z * Z * Z) :=
  match l with
  | a :: ((b :: _) as r) => (k, a, b) :: steps (k + 1) r
  | _ => []
  end.
Definition ahead_at (r : Z) (x y : Z * Z * Z) : bool :=
  let '(j, a, a') := x in let '(i, b, b') := y in let A := a' - a in let B := b' - b in
  A * B <=? ((i - j) * A * B + (r - b) * A - (r - a) * B) * 10 ^ 9.
Definition ahead (x y : Z * Z * Z) : bool :=
  let '(j, a, a') := x in let '(i, b, b') := y in
  let lo := Z.max (if j =? 0 then 0 else a) (if i =? 0 then 0 else b) in
  let hi := Z.min (Z.min a' b') (10 ^ 30 - 10 ^ 14) in
  (hi <? lo) || (ahead_at lo x y && ahead_at hi x y).
Definition apart (r s : list dec) : bool :=
  forallb (fun d => 0 <=? d_exp d + 30) (r ++ s) &&
  (scaled (dnth s 0) <=? 11 * (scaled (dnth s 1) - scaled (dnth s 0))) &&
  (let xs := steps 0 (map scaled r) in let ys := steps 0 (map scaled s) in forallb (fun x => forallb (ahead x) ys) xs).

Definition k_check (p : list dec * text) : bool :=
  match p with
  | (a :: b :: x :: y :: l, r) =>
      is_count 100 a && is_count 100 b && deq x (dlit (-5) 0) && deq y (dlit 1 0) &&
      (length l =? 100 * 100)%nat && forallb blank r && forallb row_good (chunks 100 100 l) &&
      forallb (fun r => dle (dnth r 85) (dlit 9999 (-4))) (firstn 2 (skipn 46 (chunks 100 100 l))) &&
      apart (nth 0 (chunks 100 100 l) []) (nth 1 (chunks 100 100 l) [])
  | _ => false
  end.
Lemma k_checked : k_check (whole ksi_text) = true.
Proof. vm_cast_no_check (eq_refl true). Qed.

(** ** chimin.table *)
Definition c_check (p : list dec * text) : bool :=
  let '(l, r) := p in (length l =? 100)%nat && forallb blank r && chain dlt l && forallb (between (dlit 5 (-18)) (dlit 51 (-8))) l &&
    dle (dlit 1 (-12)) (dnth l 46) && deq (dnth l 0) (dlit 5000000000000005 (-33)) && deq (dnth l 1) (dlit 5748784976988682 (-33)).
Lemma c_checked : c_check (whole chimin_text) = true.
Proof. vm_cast_no_check (eq_refl true). Qed.

(** ** pairprod.table *)
Definition t_good (l : list (dec * dec)) : bool :=
  let xs := map fst l in let ys := map snd l in
  chain dlt xs && deq (dnth xs 0) (dlit (-5) 0) && deq (dnth xs 1300) (dlit 8 0) && forallb (between (dlit (-580) 0) (dlit (-695) (-3))) ys &&
    deq (dnth xs 800) (dlit 3 0) && deq (dnth ys 800) (dlit (-123028883219917) (-14)).
Definition t_check (p : list dec * text) : bool :=
  match p with
  | (c :: l, r) => is_count 1301 c && (length l =? 2 * 1301)%nat && forallb blank r && t_good (pair_up l)
  | _ => false
  end.
Lemma t_checked : t_check (whole pairs_text) = true.
Proof. vm_cast_no_check (eq_refl true). Qed.

(** ** e_split.table *)
Definition srow_good (r : list dec) : bool :=
  (length r =? 100)%nat && chain dle r && deq (dnth r 99) (dlit 1 0) && dle (dlit 0 0) (dnth r 0).
Definition dadd_cmp (rel : Z -> Z -> bool) (a b c : dec) : bool :=   (* 2 a rel b + c *)
  let e := Z.min (d_exp a) (Z.min (d_exp b) (d_exp c)) in
  rel (2 * (d_int a * 10 ^ (d_exp a - e))) (d_int b * 10 ^ (d_exp b - e) + d_int c * 10 ^ (d_exp c - e)).
Definition s_check (p : list dec * text) : bool :=
  match p with
  | (c :: l, r) => is_count 100 c && (length l =? 100 * 100)%nat && forallb blank r && forallb srow_good (chunks 100 100 l) &&
      forallb (fun r => dadd_cmp Z.leb (dnth r 0) (dlit 0 0) (dnth r 1)) (firstn 81 (chunks 100 100 l)) &&
      forallb (fun r => dlt (dnth r 0) (dnth r 1) && dadd_cmp (fun a b => b <=? a) (dnth r 0) (dlit 6 (-4)) (dnth r 1)) (skipn 81 (chunks 100 100 l))
  | _ => false
  end.
Lemma s_checked : s_check (whole split_text) = true.
Proof. vm_cast_no_check (eq_refl true). Qed.

(** ** epsilon.table, log_chi.table *)
Definition e_check (p : list dec * text) : bool :=
  let '(l, r) := p in (length l =? 100)%nat && forallb blank r && chain dlt l && deq (dnth l 0) (dlit 1 (-2)) && deq (dnth l 1) (dlit 2 (-2)) &&
    deq (dnth l 99) (dlit 10000000000000007 (-16)).
Lemma e_checked : e_check (whole eps_text) = true.
Proof. vm_cast_no_check (eq_refl true). Qed.
Definition l_check (p : list dec * text) : bool :=
  let '(l, r) := p in (length l =? 100)%nat && forallb blank r && chain dlt l && deq (dnth l 0) (dlit (-23010299956639813) (-16)) &&
    between (dlit 1982 (-3)) (dlit 1983 (-3)) (dnth l 80) && between (dlit 2036 (-3)) (dlit 2037 (-3)) (dnth l 81) &&
    deq (dnth l 98) (dlit 29464542424680418 (-16)).
Lemma l_checked : l_check (whole logchi_text) = true.
Proof. vm_cast_no_check (eq_refl true). Qed.

(** ** The files as numbers *)
Definition pair_dec (x : entry * entry) (d : dec * dec) : Prop := is_dec (fst x) (fst d) /\ is_dec (snd x) (snd d).
Lemma blanks_white r : forallb blank r = true -> Forall white r.
Proof. rewrite forallb_forall. intros H. apply Forall_forall. intros c I. now apply blank_white, H. Qed.
Lemma count_check x d n : is_dec x d -> is_count (Z.of_nat n) d = true -> Z.of_nat n < 2 ^ 32 -> count_of x n.
Proof.
  intros I C L. unfold is_count in C. apply andb_true_iff in C. destruct C as [C1 C2]. apply Z.eqb_eq in C2. eapply count_dec; eauto.
Qed.
Ltac andbs := repeat match goal with H : (_ && _ = true)%bool |- _ => apply andb_true_iff in H; destruct H end.

Lemma h_contents f : h_check (whole f) = true -> exists c rows r l, written f (c :: in_turn rows) r /\ Forall white r /\
  count_of c 500 /\ length rows = 500%nat /\ Forall2 pair_dec rows l /\ h_good l = true.
Proof.
  intros K. unfold whole in K. destruct (numbers_of _ _) as [ds r] eqn:EN. destruct ds as [|c l]; [discriminate|].
  cbn [h_check] in K. andbs. destruct (numbers_written _ _ _ _ EN) as (es & W & F).
  inversion F as [|x ? es1 ? I1 F1]; subst.
  destruct (Forall2_pairs is_dec 500 es1 l F1) as (rows & <- & LR & FR); [now apply Nat.eqb_eq|].
  exists x, rows, r, (pair_up l). split; [exact W|]. split; [now apply blanks_white|].
  split; [eapply count_check; eauto; reflexivity|]. auto.
Qed.

Lemma k_contents f : k_check (whole f) = true -> exists a b x y rows r dx dy l, written f (a :: b :: x :: y :: concat rows) r /\ Forall white r /\
  count_of a 100 /\ count_of b 100 /\ is_dec x dx /\ is_dec y dy /\ deq dx (dlit (-5) 0) = true /\ deq dy (dlit 1 0) = true /\
  length rows = 100%nat /\ Forall (fun r => length r = 100%nat) rows /\ Forall2 (Forall2 is_dec) rows l /\ forallb row_good l = true /\
  forallb (fun r => dle (dnth r 85) (dlit 9999 (-4))) (firstn 2 (skipn 46 l)) = true /\ apart (nth 0 l []) (nth 1 l []) = true.
Proof.
  intros K. unfold whole in K. destruct (numbers_of _ _) as [ds r] eqn:EN.
  destruct ds as [|a [|b [|dx [|dy l]]]]; try discriminate.
  cbn [k_check] in K. andbs. destruct (numbers_written _ _ _ _ EN) as (es & W & F).
  inversion F as [|xa ? es1 ? I1 F1]; subst. inversion F1 as [|xb ? es2 ? I2 F2]; subst.
  inversion F2 as [|x ? es3 ? I3 F3]; subst. inversion F3 as [|y ? es4 ? I4 F4]; subst.
  destruct (Forall2_chunks is_dec 100 100 es4 l F4) as (rows & <- & LR & FL & FR); [now apply Nat.eqb_eq|].
  exists xa, xb, x, y, rows, r, dx, dy, (chunks 100 100 l). split; [exact W|]. split; [now apply blanks_white|].
  split; [eapply count_check; eauto; reflexivity|]. split; [eapply count_check; eauto; reflexivity|]. repeat (split; [assumption|]). assumption.
Qed.

Lemma c_contents f : c_check (whole f) = true -> exists mins r l, written f mins r /\ Forall white r /\ length mins = 100%nat /\
  Forall2 is_dec mins l /\ chain dlt l = true /\ forallb (between (dlit 5 (-18)) (dlit 51 (-8))) l = true /\
  dle (dlit 1 (-12)) (dnth l 46) = true /\ deq (dnth l 0) (dlit 5000000000000005 (-33)) = true /\ deq (dnth l 1) (dlit 5748784976988682 (-33)) = true.
Proof.
  intros K. unfold whole in K. destruct (numbers_of _ _) as [l r] eqn:EN.
  cbn [c_check] in K. andbs. destruct (numbers_written _ _ _ _ EN) as (es & W & F).
  exists es, r, l. repeat split; auto; [now apply blanks_white|]. rewrite (Forall2_len _ _ _ F). now apply Nat.eqb_eq.
Qed.

Lemma t_contents f : t_check (whole f) = true -> exists c rows r l, written f (c :: in_turn rows) r /\ Forall white r /\
  count_of c 1301 /\ length rows = 1301%nat /\ Forall2 pair_dec rows l /\ t_good l = true.
Proof.
  intros K. unfold whole in K. destruct (numbers_of _ _) as [ds r] eqn:EN. destruct ds as [|c l]; [discriminate|].
  cbn [t_check] in K. andbs. destruct (numbers_written _ _ _ _ EN) as (es & W & F).
  inversion F as [|x ? es1 ? I1 F1]; subst.
  destruct (Forall2_pairs is_dec 1301 es1 l F1) as (rows & <- & LR & FR); [now apply Nat.eqb_eq|].
  exists x, rows, r, (pair_up l). split; [exact W|]. split; [now apply blanks_white|].
  split; [eapply count_check; eauto; reflexivity|]. auto.
Qed.

Lemma s_contents f : s_check (whole f) = true -> exists c rows r l, written f (c :: concat rows) r /\ Forall white r /\
  count_of c 100 /\ length rows = 100%nat /\ Forall (fun r => length r = 100%nat) rows /\ Forall2 (Forall2 is_dec) rows l /\
  forallb srow_good l = true /\
  forallb (fun r => dadd_cmp Z.leb (dnth r 0) (dlit 0 0) (dnth r 1)) (firstn 81 l) = true /\
  forallb (fun r => dlt (dnth r 0) (dnth r 1) && dadd_cmp (fun a b => b <=? a) (dnth r 0) (dlit 6 (-4)) (dnth r 1)) (skipn 81 l) = true.
Proof.
  intros K. unfold whole in K. destruct (numbers_of _ _) as [ds r] eqn:EN. destruct ds as [|c l]; [discriminate|].
  cbn [s_check] in K. apply andb_true_iff in K. destruct K as [K K2]. apply andb_true_iff in K. destruct K as [K K1]. andbs.
  destruct (numbers_written _ _ _ _ EN) as (es & W & F). inversion F as [|x ? es1 ? I1 F1]; subst.
  destruct (Forall2_chunks is_dec 100 100 es1 l F1) as (rows & <- & LR & FL & FR); [now apply Nat.eqb_eq|].
  exists x, rows, r, (chunks 100 100 l). split; [exact W|]. split; [now apply blanks_white|].
  split; [eapply count_check; eauto; reflexivity|]. repeat split; auto.
Qed.

Lemma e_contents f : e_check (whole f) = true -> exists es r l, written f es r /\ Forall white r /\ length es = 100%nat /\
  Forall2 is_dec es l /\ chain dlt l = true /\ deq (dnth l 0) (dlit 1 (-2)) = true /\ deq (dnth l 1) (dlit 2 (-2)) = true /\
  deq (dnth l 99) (dlit 10000000000000007 (-16)) = true.
Proof.
  intros K. unfold whole in K. destruct (numbers_of _ _) as [l r] eqn:EN.
  cbn [e_check] in K. do 5 (apply andb_true_iff in K; destruct K as [K ?]). destruct (numbers_written _ _ _ _ EN) as (es & W & F).
  exists es, r, l. repeat split; auto; [now apply blanks_white|]. rewrite (Forall2_len _ _ _ F). now apply Nat.eqb_eq.
Qed.

Lemma l_contents f : l_check (whole f) = true -> exists es r l, written f es r /\ Forall white r /\ length es = 100%nat /\
  Forall2 is_dec es l /\ chain dlt l = true /\ deq (dnth l 0) (dlit (-23010299956639813) (-16)) = true /\
  between (dlit 1982 (-3)) (dlit 1983 (-3)) (dnth l 80) = true /\ between (dlit 2036 (-3)) (dlit 2037 (-3)) (dnth l 81) = true /\
  deq (dnth l 98) (dlit 29464542424680418 (-16)) = true.
Proof.
  intros K. unfold whole in K. destruct (numbers_of _ _) as [l r] eqn:EN.
  cbn [l_check] in K. do 6 (apply andb_true_iff in K; destruct K as [K ?]). destruct (numbers_written _ _ _ _ EN) as (es & W & F).
  exists es, r, l. repeat split; auto; [now apply blanks_white|]. rewrite (Forall2_len _ _ _ F). now apply Nat.eqb_eq.
Qed.
