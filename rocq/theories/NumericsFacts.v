(** * Numerics: proofs *)
From Coq Require Import ZArith Reals Lra Psatz List Lia.
From Verif Require Import Num RNum Outcome OutcomeFacts Numerics SpecTable.
Import ListNotations.

(** ** Any arithmetic *)
Section Any.
Context {T : Type} `{Num T}.
Local Open Scope Z_scope.

Lemma first_above_cases (fuel : nat) (sp : list T) q (i : Z) :
  0 <= i -> i + Z.of_nat fuel = Z.of_nat (length sp) ->
  (first_above fuel sp q i = Ok (0, 1) /\
     forall k d, i <= Z.of_nat k < Z.of_nat (length sp) -> nltb q (nth k sp d) = false) \/
  (exists j, i <= j < Z.of_nat (length sp) /\ first_above fuel sp q i = Ok (j - 1, j) /\
     (forall d, nltb q (nth (Z.to_nat j) sp d) = true) /\
     forall k d, i <= Z.of_nat k < j -> nltb q (nth k sp d) = false).
Proof.
  revert i. induction fuel as [|f IH]; intros i Hi Hl; cbn [first_above].
  - left. split; [reflexivity|]. intros; lia.
  - destruct sp as [|d0 sp']; [cbn in Hl; lia|]. set (sp := d0 :: sp') in *.
    rewrite (get_Z sp i d0) by lia. cbn [bind].
    destruct (nltb q (nth (Z.to_nat i) sp d0)) eqn:E.
    + right. exists i. split; [lia|]. split; [reflexivity|]. split.
      * intros d. rewrite (nth_indep sp d d0); [exact E|lia].
      * intros; lia.
    + destruct (IH (i + 1)) as [[R K] | (j & B & R & Hj & K)]; [lia|lia| |].
      * left. split; [exact R|]. intros k d Hk. destruct (Z.eq_dec i (Z.of_nat k)) as [->|N].
        -- rewrite Nat2Z.id in E. rewrite (nth_indep sp d d0); [exact E|lia].
        -- apply K; lia.
      * right. exists j. split; [lia|]. split; [exact R|]. split; [exact Hj|].
        intros k d Hk. destruct (Z.eq_dec i (Z.of_nat k)) as [->|N].
        -- rewrite Nat2Z.id in E. rewrite (nth_indep sp d d0); [exact E|lia].
        -- apply K; lia.
Qed.

Lemma last_below_cases (fuel : nat) (sp : list T) q (i low : Z) :
  0 <= i -> i + Z.of_nat fuel = Z.of_nat (length sp) ->
  exists j, i <= j <= Z.of_nat (length sp) /\
    last_below fuel sp q i low = Ok (if i <? j then j - 1 else low) /\
    (forall k d, i <= Z.of_nat k < j -> nltb (nth k sp d) q = true) /\
    (forall d, j < Z.of_nat (length sp) -> nltb (nth (Z.to_nat j) sp d) q = false).
Proof.
  revert i low. induction fuel as [|f IH]; intros i low Hi Hl; cbn [last_below].
  - exists i. rewrite Z.ltb_irrefl. repeat split; try lia; intros; lia.
  - destruct sp as [|d0 sp']; [cbn in Hl; lia|]. set (sp := d0 :: sp') in *.
    rewrite (get_Z sp i d0) by lia. cbn [bind].
    destruct (nltb (nth (Z.to_nat i) sp d0) q) eqn:E.
    + destruct (IH (i + 1) i) as (j & B & R & K & L); [lia|lia|].
      exists j. split; [lia|]. split; [|split].
      * rewrite R. f_equal. destruct (Z.ltb_spec (i+1) j), (Z.ltb_spec i j); lia.
      * intros k d Hk. destruct (Z.eq_dec i (Z.of_nat k)) as [->|N].
        -- rewrite Nat2Z.id in E. rewrite (nth_indep sp d d0); [exact E|lia].
        -- apply K; lia.
      * intros d Hj. apply L; lia.
    + exists i. rewrite Z.ltb_irrefl. split; [lia|]. split; [reflexivity|]. split.
      * intros; lia.
      * intros d _. rewrite (nth_indep sp d d0); [exact E|lia].
Qed.

Lemma interpolate_safe (sp sd : list T) q :
  (2 <= length sp)%nat -> length sd = length sp -> Z.of_nat (length sp) < 2 ^ 31 ->
  exists r, interpolate1d sp sd (Z.of_nat (length sp)) q = Ok r.
Proof.
  intros H2 HL HB. destruct sp as [|s0 spt]; [cbn in H2; lia|].
  destruct sd as [|e0 sdt]; [cbn in HL; lia|].
  set (sp := s0 :: spt) in *. set (sd := e0 :: sdt) in *.
  unfold interpolate1d.
  rewrite (get_Z sp 0 s0) by lia. cbn [bind].
  destruct (nltb q _) eqn:E0.
  - rewrite (get_Z sd 0 e0), (get_Z sd 1 e0), (get_Z sp 1 s0) by lia. cbn [bind]. eauto.
  - rewrite u32_id, s32_id by lia.
    rewrite (get_Z sp (Z.of_nat (length sp) - 1) s0) by lia. cbn [bind].
    destruct (nltb _ q) eqn:E1.
    + rewrite (get_Z sd _ e0), (get_Z sd _ e0), (get_Z sp _ s0) by lia. cbn [bind]. eauto.
    + rewrite Nat2Z.id.
      destruct (first_above_cases (length sp) sp q 0) as [[R _] | (j & B & R & Hj & _)]; try lia; rewrite R; cbn [bind fst snd].
      * rewrite (get_Z sd 0 e0), (get_Z sd 1 e0), (get_Z sp 0 s0), (get_Z sp 1 s0) by lia. cbn [bind]. eauto.
      * assert (j <> 0). { intros ->. rewrite (Hj s0) in E0. discriminate. }
        rewrite (get_Z sd (j-1) e0), (get_Z sd j e0), (get_Z sp (j-1) s0), (get_Z sp j s0) by lia. cbn [bind]. eauto.
Qed.

Lemma interpolate_short (sp sd : list T) q :
  (length sp <= 1)%nat -> (length sd <= 1)%nat ->
  interpolate1d sp sd (Z.of_nat (length sp)) q = UB OutOfBounds.
Proof.
  intros H1 H2. destruct sp as [|s0 [|]]; cbn in H1; try lia.
  - unfold interpolate1d. rewrite get_oob; [reflexivity|]. cbn; lia.
  - unfold interpolate1d. rewrite (get_Z [s0] 0 s0) by (cbn; lia). cbn [bind].
    assert (G1 : get sd 1 = UB OutOfBounds) by (apply get_oob; right; lia).
    assert (Gm : get sd (-1) = UB OutOfBounds) by (apply get_oob; left; lia).
    assert (G1' : get [s0] 1 = UB OutOfBounds) by (apply get_oob; right; cbn; lia).
    destruct (nltb q _).
    + destruct (get_cases sd 0) as [(a & -> & _) | [-> _]]; cbn [bind]; [rewrite G1|]; reflexivity.
    + change (Z.of_nat (length [s0])) with 1. change (u32 (1 - 1)) with 0. change (s32 0) with 0.
      rewrite (get_Z [s0] 0 s0) by (cbn; lia). cbn [bind].
      destruct (nltb _ q).
      * change (0 - 1) with (-1). destruct (get_cases sd 0) as [(a & -> & _) | [-> _]]; cbn [bind]; [rewrite Gm|]; reflexivity.
      * cbn [Z.to_nat Pos.to_nat]. change (Pos.to_nat 1) with 1%nat. cbn [first_above].
        rewrite (get_Z [s0] 0 s0) by (cbn; lia). cbn [bind].
        destruct (nltb q _); cbn [bind fst snd].
        -- change (0 - 1) with (-1). rewrite Gm. reflexivity.
        -- destruct (get_cases sd 0) as [(a & -> & _) | [-> _]]; cbn [bind]; [|reflexivity].
           rewrite (get_Z [s0] 0 s0) by (cbn; lia). cbn [bind]. rewrite G1. reflexivity.
Qed.

Lemma array_index_range (sp : list T) q :
  (1 <= length sp)%nat -> Z.of_nat (length sp) < 2 ^ 31 ->
  exists i, array_index sp (Z.of_nat (length sp)) q = Ok i /\ 0 <= i < Z.of_nat (length sp).
Proof.
  intros H1 HB. unfold array_index. rewrite Nat2Z.id.
  destruct (last_below_cases (length sp) sp q 0 0) as (j & B & R & _); try lia. rewrite R. cbn [bind].
  rewrite u32_id, s32_id by lia.
  set (low := if 0 <? j then j - 1 else 0).
  assert (0 <= low < Z.of_nat (length sp)) by (unfold low; destruct (Z.ltb_spec 0 j); lia).
  destruct (Z.ltb_spec low (Z.of_nat (length sp) - 1)).
  - destruct sp as [|d0 sp']; [cbn in *; lia|]. rewrite (get_Z _ low d0), (get_Z _ (low+1) d0) by lia. cbn [bind].
    destruct (nltb _ _); eexists; split; try reflexivity; lia.
  - eexists; split; [reflexivity|]; lia.
Qed.

Lemma array_index_empty q : array_index (@nil T) 0 q = UB OutOfBounds.
Proof. reflexivity. Qed.

Lemma simpson_short (axis f : list T) : (length f <= 1)%nat -> simpson axis f = UB OutOfBounds.
Proof.
  intros H1. unfold simpson.
  destruct (get_cases axis (Z.of_nat (length axis) - 1)) as [(a & -> & _) | [-> _]]; cbn [bind]; [|reflexivity].
  destruct (get_cases axis 0) as [(b & -> & _) | [-> _]]; cbn [bind]; [|reflexivity].
  destruct f as [|f0 [|]]; cbn in H1; try lia.
  - reflexivity.
  - cbn [length]. rewrite (get_Z [f0] 0 f0) by (cbn; lia). cbn [bind].
    change (u64 (Z.of_nat 1 - 1)) with 0. change (u64 (Z.of_nat 1 - 2)) with (2 ^ 64 - 1).
    cbn [sum_step2]. change (1 <? 0) with false. cbn iota. cbn [bind].
    change (2 <? 2 ^ 64 - 1) with true. cbn iota.
    rewrite (get_oob [f0] 2) by (cbn; lia). reflexivity.
Qed.
End Any.

(** ** Exact reals *)
Local Open Scope R_scope.

Lemma increasing_le l i j : increasing l -> (i <= j < length l)%nat -> at_ l i <= at_ l j.
Proof.
  intros H Hij. destruct (Nat.eq_dec i j) as [->|]; [lra|]. apply Rlt_le, H. lia.
Qed.

Lemma increasing_inj l i j : increasing l -> (i < length l)%nat -> (j < length l)%nat ->
  at_ l i < at_ l j -> (i < j)%nat.
Proof.
  intros H Hi Hj L. destruct (lt_dec i j); auto.
  pose proof (increasing_le l j i H ltac:(lia)). lra.
Qed.

Lemma get_at l k : (k < length l)%nat -> get l (Z.of_nat k) = Ok (at_ l k).
Proof. intros. apply get_nat; auto. Qed.
Lemma get_atZ l i : (0 <= i < Z.of_nat (length l))%Z -> get l i = Ok (at_ l (Z.to_nat i)).
Proof. intros. apply get_Z; auto. Qed.

Section Interp.
Variables (sp sd : list R).
Hypothesis (N2 : (2 <= length sp)%nat) (NL : length sd = length sp)
           (NB : (Z.of_nat (length sp) < 2 ^ 31)%Z) (INC : increasing sp).
Let n := length sp.

Lemma interp_inside q : at_ sp 0 <= q < at_ sp (n - 1) ->
  exists i, (S i < n)%nat /\ at_ sp i <= q < at_ sp (S i) /\
    interpolate1d sp sd (Z.of_nat n) q = Ok (segment sp sd i q).
Proof.
  intros [Hlo Hhi]. unfold interpolate1d.
  rewrite (get_atZ sp 0) by lia. cbn [bind]. rnum. cbn [Z.to_nat].
  destruct (Rltb q (at_ sp 0)) eqn:E0; rdestr; [lra|].
  rewrite u32_id, s32_id by (unfold n; lia).
  rewrite (get_atZ sp (Z.of_nat n - 1)) by (unfold n in *; lia). cbn [bind].
  replace (Z.to_nat (Z.of_nat n - 1)) with (n - 1)%nat by lia.
  destruct (Rltb (at_ sp (n-1)) q) eqn:E1; rdestr; [lra|].
  rewrite Nat2Z.id.
  destruct (first_above_cases n sp q 0) as [[_ K] | (j & B & R & Hj & K)]; [lia|unfold n; lia| |].
  - exfalso. specialize (K (n-1)%nat 0 ltac:(unfold n in *; lia)). rnum. rdestr. unfold at_ in *. lra.
  - rewrite R. cbn [bind fst snd].
    specialize (Hj 0). rnum. rdestr.
    assert (j <> 0)%Z. { intros ->. cbn [Z.to_nat] in Hj. unfold at_ in *. lra. }
    set (i := Z.to_nat (j - 1)).
    assert (Ei : Z.to_nat j = S i) by (unfold i; lia).
    exists i. split; [unfold n; lia|]. split; [split|].
    + specialize (K i 0 ltac:(lia)). rnum. rdestr. exact K.
    + unfold at_. rewrite <- Ei. exact Hj.
    + rewrite !get_atZ by lia. cbn [bind]. rewrite Ei. fold i. reflexivity.
Qed.

Lemma interp_below q : q < at_ sp 0 ->
  interpolate1d sp sd (Z.of_nat n) q = Ok (segment sp sd 0 q).
Proof.
  intros Hq. unfold interpolate1d.
  rewrite (get_atZ sp 0) by lia. cbn [bind]. rnum. cbn [Z.to_nat].
  destruct (Rltb q (at_ sp 0)) eqn:E0; rdestr; [|lra].
  rewrite !get_atZ by lia. cbn [bind]. cbn [Z.to_nat]. change (Pos.to_nat 1) with 1%nat.
  f_equal. unfold segment, line, Rdiv. ring.
Qed.

Lemma interp_above q : at_ sp (n - 1) < q ->
  interpolate1d sp sd (Z.of_nat n) q =
  Ok (segment sp sd (n - 2) q + (at_ sd (n - 1) - at_ sd (n - 2))).
Proof.
  intros Hq. unfold interpolate1d.
  rewrite (get_atZ sp 0) by lia. cbn [bind]. rnum. cbn [Z.to_nat].
  pose proof (increasing_le sp 0 (n-1) INC ltac:(unfold n; lia)).
  destruct (Rltb q (at_ sp 0)) eqn:E0; rdestr; [lra|].
  rewrite u32_id, s32_id by (unfold n; lia).
  rewrite (get_atZ sp (Z.of_nat n - 1)) by (unfold n in *; lia). cbn [bind].
  replace (Z.to_nat (Z.of_nat n - 1)) with (n - 1)%nat by lia.
  destruct (Rltb (at_ sp (n-1)) q) eqn:E1; rdestr; [|lra].
  rewrite !get_atZ by (unfold n in *; lia). cbn [bind].
  replace (Z.to_nat (Z.of_nat n - 1)) with (n - 1)%nat by lia.
  replace (Z.to_nat (Z.of_nat n - 1 - 1)) with (n - 2)%nat by lia.
  f_equal. unfold segment, line.
  replace (S (n - 2)) with (n - 1)%nat by (unfold n in *; lia).
  pose proof (INC (n-2)%nat (n-1)%nat ltac:(unfold n in *; lia)).
  field. lra.
Qed.

Lemma interp_last :
  interpolate1d sp sd (Z.of_nat n) (at_ sp (n - 1)) = Ok (segment sp sd 0 (at_ sp (n - 1))).
Proof.
  set (q := at_ sp (n - 1)). unfold interpolate1d.
  rewrite (get_atZ sp 0) by lia. cbn [bind]. rnum. cbn [Z.to_nat].
  pose proof (increasing_le sp 0 (n-1) INC ltac:(unfold n; lia)) as H0. fold q in H0.
  destruct (Rltb q (at_ sp 0)) eqn:E0; rdestr; [lra|].
  rewrite u32_id, s32_id by (unfold n; lia).
  rewrite (get_atZ sp (Z.of_nat n - 1)) by (unfold n in *; lia). cbn [bind].
  replace (Z.to_nat (Z.of_nat n - 1)) with (n - 1)%nat by lia. fold q.
  destruct (Rltb q q) eqn:E1; rdestr; [lra|].
  rewrite Nat2Z.id.
  destruct (first_above_cases n sp q 0) as [[R _] | (j & B & R & Hj & K)]; [lia|unfold n; lia| |].
  - rewrite R. cbn [bind fst snd]. rewrite !get_atZ by lia. reflexivity.
  - exfalso. specialize (Hj 0). rnum. rdestr.
    pose proof (increasing_le sp (Z.to_nat j) (n-1) INC ltac:(unfold n; lia)) as H1. fold q in H1.
    unfold at_ in *. lra.
Qed.
End Interp.

Lemma segment_node sp sd i : at_ sp i <> at_ sp (S i) -> segment sp sd i (at_ sp i) = at_ sd i.
Proof. intros. unfold segment, line. field. lra. Qed.
Lemma segment_node' sp sd i : at_ sp i < at_ sp (S i) -> segment sp sd i (at_ sp (S i)) = at_ sd (S i).
Proof. intros. unfold segment, line. field. lra. Qed.

Lemma segment_between sp sd i q : at_ sp i <= q <= at_ sp (S i) -> at_ sp i < at_ sp (S i) ->
  Rmin (at_ sd i) (at_ sd (S i)) <= segment sp sd i q <= Rmax (at_ sd i) (at_ sd (S i)).
Proof.
  intros [A B] C. unfold segment, line.
  set (x0 := at_ sp i) in *. set (x1 := at_ sp (S i)) in *. set (y0 := at_ sd i). set (y1 := at_ sd (S i)).
  set (t := (q - x0) / (x1 - x0)).
  assert (Ht : 0 <= t <= 1).
  { unfold t. split.
    - apply Rmult_le_pos; [lra|]. apply Rlt_le, Rinv_0_lt_compat; lra.
    - apply Rmult_le_reg_r with (x1 - x0); [lra|]. unfold Rdiv. rewrite Rmult_assoc, Rinv_l; lra. }
  replace (y0 + (q - x0) * (y1 - y0) / (x1 - x0)) with (y0 + t * (y1 - y0)) by (unfold t; field; lra).
  unfold Rmin, Rmax. destruct (Rle_dec y0 y1); nra.
Qed.

Lemma interp_inside_full (sp sd : list R) (q : R) :
  (2 <= length sp)%nat -> length sd = length sp -> (Z.of_nat (length sp) < 2 ^ 31)%Z -> increasing sp ->
  at_ sp 0 <= q < at_ sp (length sp - 1) ->
  exists i r, (S i < length sp)%nat /\ at_ sp i <= q < at_ sp (S i) /\
    interpolate1d sp sd (Z.of_nat (length sp)) q = Ok r /\
    r = line (at_ sp i) (at_ sd i) (at_ sp (S i)) (at_ sd (S i)) q /\
    Rmin (at_ sd i) (at_ sd (S i)) <= r <= Rmax (at_ sd i) (at_ sd (S i)).
Proof.
  intros N2 NL NB INC H. destruct (interp_inside sp sd N2 NL NB q H) as (i & Hi & Hq & E).
  exists i, (segment sp sd i q). repeat split; auto; try lra.
  - apply segment_between; lra.
  - apply segment_between; lra.
Qed.

Lemma interp_node (sp sd : list R) (i : nat) :
  (2 <= length sp)%nat -> length sd = length sp -> (Z.of_nat (length sp) < 2 ^ 31)%Z -> increasing sp ->
  (S i < length sp)%nat ->
  interpolate1d sp sd (Z.of_nat (length sp)) (at_ sp i) = Ok (at_ sd i).
Proof.
  intros N2 NL NB INC Hi.
  destruct (interp_inside sp sd N2 NL NB (at_ sp i)) as (j & Hj & Hq & E).
  - split. apply increasing_le; auto; lia. apply INC; lia.
  - rewrite E. assert (j = i).
    { assert (j <= i)%nat.
      { destruct (le_gt_dec j i); auto. pose proof (INC i j ltac:(lia)). lra. }
      assert (i < S j)%nat by (apply (increasing_inj sp); auto; lia || lra). lia. }
    subst j. rewrite segment_node; auto. pose proof (INC i (S i) ltac:(lia)). lra.
Qed.

(** *** ArrayIndex *)
Lemma nearest_bin (sp : list R) (q : R) :
  (1 <= length sp)%nat -> (Z.of_nat (length sp) < 2 ^ 31)%Z -> increasing sp ->
  exists i, (i < length sp)%nat /\ array_index sp (Z.of_nat (length sp)) q = Ok (Z.of_nat i) /\
    (forall j, (j < length sp)%nat -> Rabs (q - at_ sp i) <= Rabs (q - at_ sp j)) /\
    (forall j, (j < length sp)%nat -> Rabs (q - at_ sp i) = Rabs (q - at_ sp j) -> (j <= i)%nat).
Proof.
  intros N1 NB INC. unfold array_index. rewrite Nat2Z.id.
  destruct (last_below_cases (length sp) sp q 0 0) as (j & B & R & K & L); try lia. rewrite R. cbn [bind].
  rewrite u32_id, s32_id by lia.
  (* low as a natural *)
  set (low := (if (0 <? j)%Z then j - 1 else 0)%Z).
  assert (Hlow : (0 <= low < Z.of_nat (length sp))%Z) by (unfold low; destruct (Z.ltb_spec 0 j); lia).
  set (l := Z.to_nat low).
  assert (HL : forall k, (k < length sp)%nat -> (Z.of_nat k < j)%Z -> at_ sp k < q).
  { intros k Hk Hkj. specialize (K k 0 ltac:(lia)). rnum. rdestr. exact K. }
  assert (HG : forall k, (k < length sp)%nat -> (j <= Z.of_nat k)%Z -> q <= at_ sp k).
  { intros k Hk Hkj. specialize (L 0 ltac:(lia)). rnum. rdestr.
    pose proof (increasing_le sp (Z.to_nat j) k INC ltac:(lia)). unfold at_ in *. lra. }
  assert (Hl1 : forall k, (k < l)%nat -> at_ sp k < q).
  { intros k Hk. apply HL; unfold l, low in *; destruct (Z.ltb_spec 0 j); lia. }
  assert (Hl2 : forall k, (l < k < length sp)%nat -> q <= at_ sp k).
  { intros k Hk. apply HG; unfold l, low in *; destruct (Z.ltb_spec 0 j); lia. }
  destruct (Z.ltb_spec low (Z.of_nat (length sp) - 1)) as [Hlt|Hge].
  - rewrite (get_atZ sp low), (get_atZ sp (low+1)) by lia. cbn [bind]. rnum.
    replace (Z.to_nat (low + 1)) with (S l) by (unfold l; lia). fold l.
    pose proof (INC l (S l) ltac:(unfold l; lia)) as Hs.
    pose proof (Hl2 (S l) ltac:(unfold l; lia)) as Hsl.
    destruct (Rltb _ _) eqn:E; rdestr.
    + exists l. split; [unfold l; lia|]. split; [f_equal; unfold l; lia|].
      assert (Hin : forall k, (k < length sp)%nat -> (k < l)%nat -> at_ sp k < at_ sp l) by (intros; apply INC; unfold l; lia).
      assert (Hout : forall k, (k < length sp)%nat -> (l < k)%nat -> at_ sp (S l) <= at_ sp k) by (intros; apply increasing_le; auto; lia).
      split; intros k Hk.
      * destruct (lt_eq_lt_dec k l) as [[C| ->]|C]; [| lra |].
        -- pose proof (Hl1 k C). pose proof (Hin k Hk C).
           assert (at_ sp l < q). { apply HL. unfold l; lia. unfold l, low in *; destruct (Z.ltb_spec 0 j); lia. }
           rewrite !Rabs_right; lra.
        -- pose proof (Hout k Hk C). unfold Rabs. destruct (Rcase_abs _), (Rcase_abs _); lra.
      * intros Ek. destruct (le_gt_dec k l) as [|C]; auto. exfalso.
        pose proof (Hout k Hk C). revert Ek. unfold Rabs. destruct (Rcase_abs _), (Rcase_abs _); lra.
    + exists (S l). split; [unfold l; lia|]. split; [f_equal; unfold l; lia|].
      assert (Hin : forall k, (k < length sp)%nat -> (k <= l)%nat -> at_ sp k <= at_ sp l) by (intros; apply increasing_le; auto; unfold l; lia).
      assert (Hout : forall k, (k < length sp)%nat -> (S l < k)%nat -> at_ sp (S l) < at_ sp k) by (intros; apply INC; lia).
      split; intros k Hk.
      * destruct (lt_eq_lt_dec k (S l)) as [[C| ->]|C]; [| lra |].
        -- pose proof (Hin k Hk ltac:(lia)). unfold Rabs. destruct (Rcase_abs _), (Rcase_abs _); lra.
        -- pose proof (Hout k Hk C). unfold Rabs. destruct (Rcase_abs _), (Rcase_abs _); lra.
      * intros Ek. destruct (le_gt_dec k (S l)) as [|C]; auto. exfalso.
        pose proof (Hout k Hk C). revert Ek. unfold Rabs. destruct (Rcase_abs _), (Rcase_abs _); lra.
  - exists (length sp - 1)%nat. split; [lia|]. split; [f_equal; lia|].
    assert (El : l = (length sp - 1)%nat) by (unfold l; lia).
    split; intros k Hk; [|intros _; lia].
    destruct (Nat.eq_dec k (length sp - 1)) as [->|C]; [lra|].
    pose proof (Hl1 k ltac:(lia)). pose proof (INC k (length sp - 1)%nat ltac:(lia)).
    destruct (Z_lt_le_dec (Z.of_nat (length sp - 1)) j) as [D|D].
    + pose proof (HL (length sp - 1)%nat ltac:(lia) D). rewrite !Rabs_right; lra.
    + exfalso. unfold low in *. destruct (Z.ltb_spec 0 j); lia.
Qed.

(** *** ClosestPoints *)
Lemma closest_points_spec (sp : list R) (q : R) :
  (2 <= length sp)%nat -> (Z.of_nat (length sp) < 2 ^ 31)%Z -> increasing sp ->
  (at_ sp (length sp - 2) < q -> closest_points sp (Z.of_nat (length sp)) q = Exit (-1)) /\
  (q <= at_ sp (length sp - 2) -> (3 <= length sp)%nat ->
     exists i f, closest_points sp (Z.of_nat (length sp)) q = Ok (Z.of_nat i, f) /\
       (S i <= length sp - 2)%nat /\
       q = at_ sp i + f * (at_ sp (S i) - at_ sp i) /\
       (at_ sp 0 < q -> 0 < f <= 1) /\ (q <= at_ sp 0 -> f <= 0 /\ i = 0%nat)) /\
  (q <= at_ sp (length sp - 2) -> length sp = 2%nat -> closest_points sp (Z.of_nat (length sp)) q = Exit (-1)).
Proof.
  intros N2 NB INC. unfold closest_points. rewrite Nat2Z.id.
  destruct (last_below_cases (length sp) sp q 0 0) as (j & B & R & K & L); try lia. rewrite R. cbn [bind].
  rewrite u32_id by lia.
  set (low := (if (0 <? j)%Z then j - 1 else 0)%Z).
  assert (HL : forall k, (k < length sp)%nat -> (Z.of_nat k < j)%Z -> at_ sp k < q).
  { intros k Hk Hkj. specialize (K k 0 ltac:(lia)). rnum. rdestr. exact K. }
  assert (HG : forall k, (k < length sp)%nat -> (j <= Z.of_nat k)%Z -> q <= at_ sp k).
  { intros k Hk Hkj. specialize (L 0 ltac:(lia)). rnum. rdestr.
    pose proof (increasing_le sp (Z.to_nat j) k INC ltac:(lia)). unfold at_ in *. lra. }
  split; [|split].
  - intros Hq. assert (Z.of_nat (length sp - 2) < j)%Z.
    { destruct (Z_lt_le_dec (Z.of_nat (length sp - 2)) j); auto.
      pose proof (HG (length sp - 2)%nat ltac:(lia) ltac:(lia)). lra. }
    destruct (Z.ltb_spec low (Z.of_nat (length sp) - 2)); [|reflexivity].
    exfalso. unfold low in *. destruct (Z.ltb_spec 0 j); lia.
  - intros Hq N3. assert (j <= Z.of_nat (length sp - 2))%Z.
    { destruct (Z_lt_le_dec (Z.of_nat (length sp - 2)) j); auto.
      pose proof (HL (length sp - 2)%nat ltac:(lia) ltac:(lia)). lra. }
    destruct (Z.ltb_spec low (Z.of_nat (length sp) - 2)).
    2: { exfalso. unfold low in *. destruct (Z.ltb_spec 0 j); lia. }
    assert (0 <= low)%Z by (unfold low; destruct (Z.ltb_spec 0 j); lia).
    set (i := Z.to_nat low).
    rewrite !get_atZ by lia. cbn [bind]. rnum. fold i.
    replace (Z.to_nat (low + 1)) with (S i) by (unfold i; lia).
    pose proof (INC i (S i) ltac:(unfold i; lia)) as Hs.
    exists i, ((q - at_ sp i) / (at_ sp (S i) - at_ sp i)).
    split; [repeat f_equal; unfold i; lia|]. split; [unfold i; lia|]. split; [field; lra|].
    split; intros Hq0.
    + assert (0 < j)%Z. { destruct (Z_lt_le_dec 0 j); auto. pose proof (HG 0%nat ltac:(lia) ltac:(lia)). lra. }
      assert (Hlow : low = (j - 1)%Z) by (unfold low; destruct (Z.ltb_spec 0 j); lia).
      pose proof (HL i ltac:(unfold i; lia) ltac:(unfold i; lia)).
      pose proof (HG (S i) ltac:(unfold i; lia) ltac:(unfold i; lia)).
      split.
      * apply Rdiv_lt_0_compat; lra.
      * apply Rmult_le_reg_r with (at_ sp (S i) - at_ sp i); [lra|]. unfold Rdiv. rewrite Rmult_assoc, Rinv_l; lra.
    + assert (j = 0)%Z. { destruct (Z_lt_le_dec 0 j); [|lia]. pose proof (HL 0%nat ltac:(lia) ltac:(lia)). lra. }
      assert (i = 0%nat) by (unfold i, low; subst j; reflexivity).
      split; [|auto]. rewrite H3 in *.
      assert (0 < / (at_ sp 1 - at_ sp 0)) by (apply Rinv_0_lt_compat; lra).
      unfold Rdiv. nra.
  - intros Hq N2'. destruct (Z.ltb_spec low (Z.of_nat (length sp) - 2)); [|reflexivity].
    exfalso. unfold low in *. destruct (Z.ltb_spec 0 j); lia.
Qed.
