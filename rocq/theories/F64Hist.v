(** * Counting and table look-up in double precision: proofs *)
From Coq Require Import ZArith Reals Lra Lia Bool List Psatz.
From Coq Require Import Floats.SpecFloat.
From Flocq Require Import Core.Zaux Core.Raux Core.Defs Core.Generic_fmt Core.FLT Core.Round_NE Core.Float_prop IEEE754.BinarySingleNaN.
From Verif Require Import Num RNum Outcome OutcomeFacts F64Facts F64Real F64Draw F64Kin Numerics SpecTable NumericsFacts Vec Particle Histogram HistFacts.
Import ListNotations.
Local Open Scope R_scope.

Lemma dbl_nth d w : Forall2 dbl d w -> forall i x r, dbl x r -> dbl (nth i d x) (nth i w r).
Proof. induction 1 as [|y s d w D F IH]; intros [|i] x r DX; cbn; auto. Qed.
Lemma F2_len (d : list spec_float) w : Forall2 dbl d w -> length d = length w.
Proof. induction 1; cbn; congruence. Qed.
Lemma Forall2_length {A B} (P : A -> B -> Prop) l m : Forall2 P l m -> length l = length m.
Proof. induction 1; cbn; congruence. Qed.

(** doubles compare, and differences keep their sign *)
Lemma diff_rel a b : representable a -> representable b -> a <= b -> (1 - two (-53)) * (b - a) <= rnd (b - a) <= (1 + two (-53)) * (b - a).
Proof.
  intros FA FB H. pose proof (rnd_plus_rel b (- a) FB (generic_format_opp _ _ _ FA)) as Q. change (b + - a) with (b - a) in Q.
  rewrite (Rabs_pos_eq (b - a)) in Q by lra. apply Rabs_le_inv in Q. lra.
Qed.

Section Index.
Variable L : Libm.
Local Notation N := (Num_F64 L).

Lemma last_below_dbl sp c q v : Forall2 dbl sp c -> dbl q v ->
  forall fuel i low, @last_below _ N fuel sp q i low = last_below fuel c v i low.
Proof.
  intros F D fuel. induction fuel as [|f IH]; intros i low; cbn [last_below]; [reflexivity|].
  destruct (get_cases sp i) as [(x & Hx & Bx)|[Hx Bx]].
  - rewrite (get_Z sp i x) by lia. rewrite (get_Z c i 0) by (rewrite <- (F2_len _ _ F); lia). cbn [bind].
    assert (DX : dbl (nth (Z.to_nat i) sp x) (nth (Z.to_nat i) c 0)).
    { rewrite (nth_indep sp x (f64_lit 0 0)) by lia. apply dbl_nth; auto. apply dbl_0. }
    cbn [nltb Num_F64]. rewrite (dbl_ltb _ _ _ _ DX D). change (@nltb R Num_R) with Rltb. destruct (Rltb _ v); auto.
  - rewrite Hx. rewrite get_oob by (rewrite <- (F2_len _ _ F); lia). reflexivity.
Qed.

(** [i] is, up to rounding, a bin nearest to [v] *)
Definition close_bin (c : list R) (v : R) (i : nat) : Prop :=
  (i < length c)%nat /\ forall j, (j < length c)%nat -> Rabs (v - at_ c i) <= (1 + two (-51)) * Rabs (v - at_ c j).

Lemma index_f64 sp c q v : Forall2 dbl sp c -> dbl q v -> (1 <= length c)%nat -> (Z.of_nat (length c) < 2 ^ 31)%Z -> increasing c ->
  Forall (fun x => Rabs x <= two 1020) c -> Rabs v <= two 1020 ->
  exists i, @array_index _ N sp (Z.of_nat (length sp)) q = Ok (Z.of_nat i) /\ close_bin c v i.
Proof.
  intros F D N1 NB INC HB HV. pose proof (F2_len _ _ F) as LEN.
  destruct (nearest_bin c v N1 NB INC) as (i & Hi & EI & NI & _).
  assert (E51 : 0 < two (-51)) by apply two_pos.
  assert (CI : close_bin c v i).
  { split; [exact Hi|]. intros j Hj. specialize (NI j Hj). pose proof (Rabs_pos (v - at_ c j)). nra. }
  rewrite LEN. unfold array_index in *. rewrite (last_below_dbl sp c q v F D).
  destruct (last_below_cases (length c) c v 0 0) as (jj & BJ & RJ & _); try lia. rewrite Nat2Z.id in *.
  rewrite RJ in *. cbn [bind] in *. rewrite u32_id, s32_id in * by lia.
  set (low := (if (0 <? jj)%Z then jj - 1 else 0)%Z) in *.
  assert (HL : (0 <= low < Z.of_nat (length c))%Z) by (unfold low; destruct (Z.ltb_spec 0 jj); lia).
  destruct (Z.ltb_spec low (Z.of_nat (length c) - 1)) as [HLT|HGE]; [|exists i; split; [|exact CI]].
  2:{ exact EI. }
  rewrite (get_Z c low 0), (get_Z c (low + 1) 0) in EI by lia. cbn [bind] in EI.
  rewrite (get_Z sp low (f64_lit 0 0)), (get_Z sp (low + 1) (f64_lit 0 0)) by lia. cbn [bind].
  pose proof (dbl_nth _ _ F (Z.to_nat low) _ _ dbl_0) as DA. pose proof (dbl_nth _ _ F (Z.to_nat (low + 1)) _ _ dbl_0) as DB.
  change (nth (Z.to_nat low) c 0) with (at_ c (Z.to_nat low)) in *. change (nth (Z.to_nat (low + 1)) c 0) with (at_ c (Z.to_nat (low + 1))) in *.
  assert (AB : at_ c (Z.to_nat low) < at_ c (Z.to_nat (low + 1))) by (apply INC; lia).
  assert (BA : Rabs (at_ c (Z.to_nat low)) <= two 1020) by (rewrite Forall_forall in HB; apply HB, nth_In; lia).
  assert (BB : Rabs (at_ c (Z.to_nat (low + 1))) <= two 1020) by (rewrite Forall_forall in HB; apply HB, nth_In; lia).
  set (a := at_ c (Z.to_nat low)) in *. set (b := at_ c (Z.to_nat (low + 1))) in *.
  assert (TH : 2 * two 1020 <= huge) by (rewrite <- two_double; apply bpow_le; lia).
  assert (DQ1 : dbl (f64_sub q (nth (Z.to_nat low) sp (f64_lit 0 0))) (rnd (v - a))).
  { apply dbl_sub; auto. apply Rabs_le_inv in BA, HV. apply Rabs_le. lra. }
  assert (DQ2 : dbl (f64_sub (nth (Z.to_nat (low + 1)) sp (f64_lit 0 0)) q) (rnd (b - v))).
  { apply dbl_sub; auto. apply Rabs_le_inv in BB, HV. apply Rabs_le. lra. }
  cbn [nltb nsub Num_F64]. rewrite (dbl_ltb _ _ _ _ DQ1 DQ2). change (@nltb R Num_R) with Rltb in EI. change (@nsub R Num_R) with Rminus in EI.
  destruct (Rltb (rnd (v - a)) (rnd (b - v))) eqn:E1; destruct (Rltb (v - a) (b - v)) eqn:E2.
  - exists i. split; [|exact CI]. exact EI.
  - exfalso. rdestr. pose proof (rnd_le (b - v) (v - a) ltac:(lra)). lra.
  - (* the doubles tie, the reals do not *)
    injection EI as EI. exists (Z.to_nat (low + 1)). split; [f_equal; lia|]. split; [lia|]. intros j Hj.
    assert (IA : at_ c i = a) by (unfold a; f_equal; lia). specialize (NI j Hj). rewrite IA in NI. fold b.
    rdestr. pose proof (dbl_fmt _ _ DA) as FA. pose proof (dbl_fmt _ _ DB) as FB. pose proof (dbl_fmt _ _ D) as FV.
    pose proof (two_pos (-53)) as E0. pose proof eps_small as ES.
    assert (T51 : two (-51) = 4 * two (-53)) by (change (-51)%Z with (2 + -53)%Z; rewrite bpow_plus; reflexivity).
    destruct (Rle_or_lt a v) as [AV|AV].
    + pose proof (diff_rel a v FA FV AV) as [_ U1]. pose proof (diff_rel v b FV FB ltac:(lra)) as [U2 _].
      rewrite (Rabs_pos_eq (v - a)) in NI by lra. rewrite Rabs_minus_sym, Rabs_pos_eq by lra. rewrite T51. set (e := two (-53)) in *.
      assert (b - v <= (1 + 4 * e) * (v - a)).
      { apply Rmult_le_reg_l with (1 - e); [lra|]. apply Rle_trans with ((1 + e) * (v - a)); [lra|].
        rewrite <- Rmult_assoc. apply Rmult_le_compat_r; [lra|nra]. }
      eapply Rle_trans; [exact H|]. apply Rmult_le_compat_l; lra.
    + exfalso. pose proof (diff_rel v b FV FB ltac:(lra)) as [U2 _]. pose proof (rnd_le (v - a) 0 ltac:(lra)) as U3. rewrite rnd_0 in U3.
      assert (0 < (1 - two (-53)) * (b - v)) by (apply Rmult_lt_0_compat; lra). lra.
  - exists i. split; [exact EI|exact CI].
Qed.
End Index.

(** ** Whole numbers *)
Lemma int_fmt k : (0 <= k <= 2 ^ 53)%Z -> representable (IZR k).
Proof.
  intros H. destruct (Z.eq_dec k (2 ^ 53)) as [->|NE].
  - replace (IZR (2 ^ 53)) with (two 53) by reflexivity. apply generic_format_bpow. unfold SpecFloat.fexp, SpecFloat.emin. lia.
  - change fexp64 with (FLT_exp (-1074) 53). apply generic_format_FLT. exists (Float radix2 k 0); cbn [Fnum Fexp].
    + unfold F2R. cbn. ring.
    + rewrite Z.abs_eq by lia. apply Z.lt_le_trans with (2 ^ 53)%Z; [lia|]. apply Z.le_refl.
    + cbn. discriminate.
Qed.

Lemma int_succ x k : dbl x (IZR k) -> (0 <= k < 2 ^ 53)%Z -> dbl (f64_add x (f64_lit 1 0)) (IZR (k + 1)).
Proof.
  intros D H. pose proof (dbl_add x _ (IZR k) 1 D dbl_1) as Q. rewrite <- plus_IZR in Q. rewrite rnd_id in Q by (apply int_fmt; lia).
  apply Q. rewrite Rabs_pos_eq by (apply IZR_le; lia). apply Rle_trans with (two 53); [|apply bpow_le; lia].
  change (two 53) with (IZR (2 ^ 53)). apply IZR_le. lia.
Qed.

Lemma Forall2_upd (d : list spec_float) w : Forall2 dbl d w -> forall i x r, dbl x r -> Forall2 dbl (upd d i x) (upd w i r).
Proof. induction 1 as [|y s d w D F IH]; intros [|i] x r DX; cbn; constructor; auto. Qed.

Section Count.
Variable L : Libm.
Local Notation N := (Num_F64 L).

(** the double-precision test of lines 49 and 58: strictly between the first and the last centre *)
Definition in_range (c : list spec_float) (v : spec_float) : bool :=
  (SFltb (nth 0 c (f64_lit 0 0)) v && SFltb v (nth (length c - 1) c (f64_lit 0 0)))%bool.

Lemma in_range_finite c w v : Forall2 dbl c w -> c <> [] -> is_double v -> in_range c v = true ->
  exists r, dbl v r /\ at_ w 0 < r < at_ w (length w - 1).
Proof.
  intros F NE DV H. apply andb_prop in H as [H1 H2]. pose proof (F2_len _ _ F) as LEN.
  pose proof (dbl_nth _ _ F 0 _ _ dbl_0) as D0. pose proof (dbl_nth _ _ F (length c - 1) _ _ dbl_0) as D1. rewrite LEN in D1.
  assert (FV : exists r, dbl v r).
  { exists (toR (f64 v DV)). exists (f64 v DV). split; [apply toSF_f64|]. split; [|reflexivity].
    destruct D0 as (b0 & E0 & F0 & _). destruct D1 as (b1' & E1 & F1 & _). rewrite LEN in H2. rewrite <- E0 in H1. rewrite <- E1 in H2.
    destruct v as [s|s| |s m e]; try reflexivity.
    - destruct s; [destruct b0 as [s0|s0| |s0 m0 e0 ?]|destruct b1' as [s0|s0| |s0 m0 e0 ?]]; try discriminate; destruct s0; discriminate.
    - destruct b0 as [s0|s0| |s0 m0 e0 ?]; try discriminate; destruct s0; discriminate. }
  destruct FV as (r & DR). exists r. split; [exact DR|]. rewrite (dbl_ltb _ _ _ _ D0 DR) in H1. rewrite LEN in H2. rewrite (dbl_ltb _ _ _ _ DR D1) in H2.
  change (nth 0 w 0) with (at_ w 0) in H1. change (nth (length w - 1) w 0) with (at_ w (length w - 1)) in H2. rdestr. lra.
Qed.

Lemma add_values_f64 c vs : forall (h : hist spec_float) (ks : list Z),
  hwf h -> Forall2 dbl (hi_centres h) c -> increasing c -> Forall (fun x => Rabs x <= two 1020) c ->
  Forall2 (fun x k => dbl x (IZR k)) (hi_values h) ks ->
  (forall k, In k ks -> (0 <= k /\ k + Z.of_nat (length vs) <= 2 ^ 53)%Z) -> Forall is_double vs ->
  exists h' idx, @add_values _ N h vs = Ok h' /\ hwf h' /\ same_axes h h' /\
    Forall2 (fun x i => exists r, dbl x r /\ close_bin c r i) (filter (in_range (hi_centres h)) vs) idx /\
    Forall2 (fun x k => dbl x (IZR k)) (hi_values h') (map (fun i => nth i ks 0 + Z.of_nat (count idx i))%Z (seq 0 (length ks))).
Proof.
  induction vs as [|v vs IH]; intros h ks HW FC INC HB FK HK DV; cbn [add_values filter].
  - exists h, []. split; [auto|]. split; [auto|]. split; [apply same_axes_refl|]. split; [constructor|].
    replace (map _ _) with ks; [exact FK|]. clear. induction ks as [|k t IH] using rev_ind; [reflexivity|].
    rewrite app_length, Nat.add_1_r, seq_S, map_app. cbn [map Nat.add]. f_equal.
    + rewrite IH at 1. apply map_ext_in. intros i Hi. apply in_seq in Hi. rewrite app_nth1 by lia. reflexivity.
    + rewrite app_nth2, Nat.sub_diag by lia. cbn. f_equal. lia.
  - inversion DV as [|? ? DV1 DV2]; subst. destruct (@add_value_eq _ N h v HW) as (i & Hi & EI & EA). rewrite EA. cbn [bind].
    pose proof (Forall2_length _ _ _ FK) as LK.
    assert (CND : (@nltb _ N (@lo _ N h) v && @nltb _ N v (@hi _ N h))%bool = in_range (hi_centres h) v) by reflexivity. rewrite CND in *.
    destruct (in_range (hi_centres h) v) eqn:ER.
    + set (h1 := set_counts h _ _).
      assert (W1 : hwf h1) by (apply set_counts_wf; auto; apply length_upd).
      destruct (in_range_finite _ _ _ FC ltac:(intros E; destruct HW as (A & B & _); rewrite E in B; cbn in B; lia) DV1 ER) as (r & DR & RB).
      assert (NC : (0 < length c)%nat) by (destruct HW as (A & B & _); rewrite <- (F2_len _ _ FC); lia).
      assert (BR : Rabs r <= two 1020).
      { rewrite Forall_forall in HB. assert (B0 : Rabs (at_ c 0) <= two 1020) by (apply HB, nth_In; lia).
        assert (B1 : Rabs (at_ c (length c - 1)) <= two 1020) by (apply HB, nth_In; lia).
        apply Rabs_le_inv in B0, B1. apply Rabs_le. lra. }
      destruct (index_f64 L (hi_centres h) c v r FC DR) as (i' & EI' & CB); auto.
      { destruct HW as (A & B & _). rewrite <- (F2_len _ _ FC). lia. }
      destruct HW as (A & B & C). rewrite B, EI in EI'. injection EI' as EI'. apply Nat2Z.inj in EI'. subst i'.
      assert (HKi : (0 <= nth i ks 0 /\ nth i ks 0 + Z.of_nat (length (v :: vs)) <= 2 ^ 53)%Z) by (apply HK, nth_In; lia).
      cbn [length] in HKi.
      destruct (IH h1 (upd ks i (nth i ks 0 + 1)%Z)) as (h2 & idx & E2 & W2 & A2 & F2 & V2); auto.
      * cbn [h1 hi_values set_counts].
        assert (DI : dbl (@nadd _ N (nth i (hi_values h) (@n0 _ N)) (@n1 _ N)) (IZR (nth i ks 0 + 1)%Z)).
        { apply int_succ; [|lia]. revert FK Hi. clear. intros FK. revert i. induction FK; intros i Hi; cbn in Hi; [lia|]. destruct i; cbn; [auto|]. apply IHFK. lia. }
        revert DI. generalize (@nadd _ N (nth i (hi_values h) (@n0 _ N)) (@n1 _ N)), (nth i ks 0 + 1)%Z. revert FK. clear. intros FK. revert i.
        induction FK as [|y0 k0 l0 m0 D0 F0 IH0]; intros [|i] x k D; cbn; constructor; auto.
      * intros k Hk. apply In_nth with (d := 0%Z) in Hk as (j & Hj & <-). rewrite length_upd in Hj.
        destruct (Nat.eq_dec j i) as [->|NE]; [rewrite nth_upd_same by lia; lia|]. rewrite nth_upd_other by auto.
        pose proof (HK (nth j ks 0%Z) (nth_In _ _ Hj)). cbn [length] in *. lia.
      * exists h2, (i :: idx). split; [exact E2|]. split; [exact W2|]. split; [eapply same_axes_trans; [apply set_counts_axes|exact A2]|].
        split; [constructor; [exists r; auto|exact F2]|]. rewrite length_upd in V2.
        replace (map _ _) with (map (fun j => nth j (upd ks i (nth i ks 0 + 1)) 0 + Z.of_nat (count idx j))%Z (seq 0 (length ks))); [exact V2|].
        apply map_ext_in. intros j Hj. apply in_seq in Hj. unfold count. cbn [count_occ].
        destruct (Nat.eq_dec i j) as [->|NE]; [rewrite nth_upd_same by lia; lia|]. rewrite nth_upd_other by auto. lia.
    + set (h1 := set_counts h _ _). assert (W1 : hwf h1) by (apply set_counts_wf; auto).
      destruct (IH h1 ks) as (h2 & idx & E2 & W2 & A2 & F2 & V2); auto.
      * intros k Hk. pose proof (HK k Hk). cbn [length] in *. lia.
      * exists h2, idx. split; [exact E2|]. split; [exact W2|]. split; [eapply same_axes_trans; [apply set_counts_axes|exact A2]|]. auto.
Qed.
End Count.
