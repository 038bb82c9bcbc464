(** * Processes never read outside their tables (any arithmetic) *)
From Coq Require Import String ZArith Reals List Bool Lia Lra.
From Verif Require Import Num RNum Outcome OutcomeFacts Vec Units Numerics NumericsFacts SpecTable MCTools Particle ParticleList Fields Process ProcessFacts.
Import ListNotations.

Section Safe.
Context {T : Type} `{Num T}.
Variable E : Engine T.

Lemma closest_safe (sp : list T) q : (2 <= length sp)%nat -> (Z.of_nat (length sp) < 2 ^ 31)%Z ->
  (exists low f, closest_points sp (Z.of_nat (length sp)) q = Ok (low, f) /\ (0 <= low)%Z /\ (low + 1 < Z.of_nat (length sp) - 1)%Z) \/
  closest_points sp (Z.of_nat (length sp)) q = Exit (-1).
Proof.
  intros HL HB. unfold closest_points. rewrite Nat2Z.id.
  destruct (last_below_cases (length sp) sp q 0 0) as (j & Bj & R & _); [lia|lia|]. rewrite R. cbn [bind].
  rewrite u32_id by lia. set (low := if (0 <? j)%Z then (j - 1)%Z else 0%Z).
  assert (Hlow : (0 <= low < Z.of_nat (length sp))%Z) by (unfold low; destruct (Z.ltb_spec 0 j); lia).
  destruct (Z.ltb_spec low (Z.of_nat (length sp) - 2)%Z); [|right; reflexivity].
  left. destruct sp as [|s0 st]; [cbn in HL; lia|]. set (sp := s0 :: st) in *.
  rewrite (get_Z sp low s0), (get_Z sp (low + 1) s0) by lia. cbn [bind]. eexists _, _. split; [reflexivity|]. lia.
Qed.

(** what LoadTables produces: axes and data of matching sizes *)
Definition em_tables_ok (t : em_tables T) : Prop :=
  (2 <= length (h_axis t))%nat /\ length (h_data t) = length (h_axis t) /\ h_len t = Z.of_nat (length (h_axis t)) /\
  (h_len t < 2 ^ 31)%Z /\
  (2 <= length (ph_axis t))%nat /\ ph_etaLen t = Z.of_nat (length (ph_axis t)) /\ (ph_etaLen t < 2 ^ 31)%Z /\
  length (ph_data t) = length (ph_axis t) /\ length (ph_chi t) = length (ph_axis t) /\
  (2 <= ph_chiLen t < 2 ^ 31)%Z /\
  (forall row, In row (ph_data t) \/ In row (ph_chi t) -> Z.of_nat (length row) = ph_chiLen t).
Definition bw_tables_ok (t : bw_tables T) : Prop :=
  (2 <= length (t_axis t))%nat /\ length (t_data t) = length (t_axis t) /\ t_len t = Z.of_nat (length (t_axis t)) /\
  (t_len t < 2 ^ 31)%Z /\
  (2 <= length (s_chi t))%nat /\ s_len t = Z.of_nat (length (s_chi t)) /\ (s_len t < 2 ^ 31)%Z /\
  length (s_data t) = length (s_chi t) /\ length (s_fract t) = length (s_chi t) /\
  (forall row, In row (s_data t) -> Z.of_nat (length row) = s_len t).

Lemma get_row (tab : list (list T)) i n : (0 <= i < Z.of_nat (length tab))%Z ->
  (forall row, In row tab -> Z.of_nat (length row) = n) -> exists row, get tab i = Ok row /\ Z.of_nat (length row) = n.
Proof.
  intros Hi HR. destruct (get_cases tab i) as [[a [HA _]]|[HA HB]]; [|lia]. exists a. split; [auto|].
  apply HR. unfold get in HA. destruct (_ || _)%bool; [discriminate|].
  destruct (nth_error tab (Z.to_nat i)) eqn:EN; [|discriminate]. injection HA; intros; subst. eapply nth_error_In; eauto.
Qed.

Lemma interp_ok (sp sd : list T) n q : Z.of_nat (length sp) = n -> Z.of_nat (length sd) = n -> (2 <= n < 2 ^ 31)%Z ->
  exists r, interpolate1d sp sd n q = Ok r.
Proof. intros H1 H2 Hn. subst n. apply interpolate_safe; lia. Qed.

Lemma chi_safe t eta g : em_tables_ok t ->
  (exists chi g1, calculate_chi E t eta g = Ok (chi, g1)) \/ calculate_chi E t eta g = Exit (-1).
Proof.
  intros (_ & _ & _ & _ & K1 & K2 & K3 & K4 & K5 & K6 & K7). unfold calculate_chi.
  destruct (rand_double E n0 n1 g) as [r g1]. rewrite K2.
  destruct (closest_safe (ph_axis t) (nlog10 eta) K1) as [(low & f & HC & L1 & L2)|HC]; [lia| |rewrite HC; right; reflexivity].
  rewrite HC. cbn [bind fst snd]. left.
  destruct (get_row (ph_data t) low (ph_chiLen t)) as (row & -> & R1); [lia|auto|]. cbn [bind].
  destruct (get_row (ph_chi t) low (ph_chiLen t)) as (cs & -> & R2); [lia|auto|]. cbn [bind].
  destruct (interp_ok row cs (ph_chiLen t) r R1 R2 K6) as [v ->]. cbn [bind].
  destruct (get_row (ph_data t) (low + 1) (ph_chiLen t)) as (row' & -> & R3); [lia|auto|]. cbn [bind].
  destruct (get_row (ph_chi t) (low + 1) (ph_chiLen t)) as (cs' & -> & R4); [lia|auto|]. cbn [bind].
  destruct (interp_ok row' cs' (ph_chiLen t) r R3 R4 K6) as [v' ->]. cbn [bind]. eauto.
Qed.

Lemma split_safe t chi g : bw_tables_ok t ->
  (exists s g1, calculate_split E t chi g = Ok (s, g1)) \/ calculate_split E t chi g = Exit (-1).
Proof.
  intros (_ & _ & _ & _ & K1 & K2 & K3 & K4 & K5 & K7). unfold calculate_split.
  destruct (rand_double E n0 n1 g) as [r g1].
  destruct (closest_safe (s_chi t) (nlog10 chi) K1) as [(low & f & HC & L1 & L2)|HC]; [lia| |rewrite <- K2 in HC; rewrite HC; right; reflexivity].
  rewrite <- K2 in HC. rewrite HC. cbn [bind fst snd]. left.
  destruct (get_row (s_data t) low (s_len t)) as (row & -> & R1); [lia|auto|]. cbn [bind].
  destruct (interp_ok row (s_fract t) (s_len t) r) as [v ->]; [lia|lia|lia|]. cbn [bind].
  destruct (get_row (s_data t) (low + 1) (s_len t)) as (row' & -> & R3); [lia|auto|]. cbn [bind].
  destruct (interp_ok row' (s_fract t) (s_len t) r) as [v' ->]; [lia|lia|lia|]. cbn [bind]. eauto.
Qed.

Definition process_ok (pr : process T) : Prop :=
  match pr with
  | Stochastic c | Continuous c _ => em_tables_ok (em_tab c)
  | BreitWheeler c => bw_tables_ok (bw_tab c)
  end.

(** every call returns, or ends the program with code -1; no undefined behaviour *)
Lemma interact_safe pr p l g : process_ok pr ->
  (exists p' l' g', interact E pr p l g = Ok (p', l', g')) \/ interact E pr p l g = Exit (-1).
Proof.
  destruct pr as [c|c cl|c]; cbn [process_ok interact]; intros HO.
  - unfold stochastic_interact. destruct (_ || _)%bool; [left; eauto|]. cbv zeta.
    assert (HY : exists y, (if nltb (calculate_eta (em_field c) p) (nlit 1 (-12)) then Ok (nlit 7193 (-4))
       else interpolate1d (h_axis (em_tab c)) (h_data (em_tab c)) (h_len (em_tab c)) (nlog10 (calculate_eta (em_field c) p))) = Ok y).
    { destruct (nltb _ _); [eauto|]. destruct HO as (A & B & C & D & _). apply interp_ok; lia. }
    destruct HY as [y ->]. cbn [bind]. destruct (nltb _ _); [|left; eauto].
    destruct (chi_safe (em_tab c) (calculate_eta (em_field c) p) g HO) as [(chi & g1 & ->)| ->]; [|right; reflexivity].
    cbn [bind]. left. destruct (if nltb (em_eMin c) _ then _ else _) as [keep g2].
    destruct keep.
    + destruct (new_photon_energy _ _ _ _ _ _ _ _) as [ph g3]. destruct (init_depth E _ g3) as [p4 g4]. eauto.
    + destruct (init_depth E _ g2) as [p4 g4]. eauto.
  - unfold continuous_interact. destruct (_ || _)%bool; [left; eauto|].
    destruct (rand_double E n0 n1 g) as [r g1]. destruct (nltb _ r); [left; eauto|]. cbv zeta.
    match goal with |- context [bind ?x _] => assert (HY : (exists y chi g2, x = Ok (y, chi, g2)) \/ x = Exit (-1)) end.
    { pose proof HO as (A & B & C & D & _). destruct (_ || _)%bool.
      - destruct (get_cases (h_axis (em_tab c)) 0) as [[a0 [-> _]]|[_ HB]]; [|lia]. cbn [bind].
        destruct (chi_safe (em_tab c) (nexp a0) g1 HO) as [(chi & g2 & ->)| ->]; [|right; reflexivity]. cbn [bind]. left. eauto.
      - destruct (interp_ok (h_axis (em_tab c)) (h_data (em_tab c)) (h_len (em_tab c)) (nlog10 (calculate_eta (em_field c) p))) as [y ->]; [lia|lia|lia|].
        cbn [bind]. destruct (chi_safe (em_tab c) (calculate_eta (em_field c) p) g1 HO) as [(chi & g2 & ->)| ->]; [|right; reflexivity].
        cbn [bind]. left. eauto. }
    destruct HY as [(y & chi & g2 & ->)| ->]; [|right; reflexivity]. cbn [bind]. left.
    destruct (nltb _ _); [|eauto]. destruct (new_photon_energy _ _ _ _ _ _ _ _) as [ph g3]. eauto.
  - unfold breit_wheeler_interact. destruct (_ || _)%bool; [left; eauto|]. cbv zeta.
    destruct (interp_ok (t_axis (bw_tab c)) (t_data (bw_tab c)) (t_len (bw_tab c)) (nlog10 (photon_chi (bw_field c) p))) as [y ->];
      [destruct HO as (A & B & C & D & _); lia..|]. cbn [bind].
    destruct (nltb _ _); [|left; eauto].
    destruct (split_safe (bw_tab c) (photon_chi (bw_field c) p) g HO) as [(s & g1 & ->)| ->]; [|right; reflexivity]. cbn [bind].
    left. destruct (new_lepton E n1 n1 _ _ _ _ _ _) as [po g2]. destruct (new_lepton E n1 (nlit (-1) 0) _ _ _ _ _ g2) as [el g3]. eauto.
Qed.

(** the program is ended by the sampling of an event only *)
Lemma stochastic_exit c p l g : em_tables_ok (em_tab c) -> stochastic_interact E c p l g = Exit (-1) ->
  calculate_chi E (em_tab c) (calculate_eta (em_field c) p) g = Exit (-1).
Proof.
  intros HO. unfold stochastic_interact. destruct (_ || _)%bool; [discriminate|]. cbv zeta.
  assert (HY : exists y, (if nltb (calculate_eta (em_field c) p) (nlit 1 (-12)) then Ok (nlit 7193 (-4))
     else interpolate1d (h_axis (em_tab c)) (h_data (em_tab c)) (h_len (em_tab c)) (nlog10 (calculate_eta (em_field c) p))) = Ok y).
  { destruct (nltb _ _); [eauto|]. destruct HO as (A & B & C & D & _). apply interp_ok; lia. }
  destruct HY as [y ->]. cbn [bind]. destruct (nltb _ _); [|discriminate].
  destruct (chi_safe (em_tab c) (calculate_eta (em_field c) p) g HO) as [(chi & g1 & ->)| ->]; [|reflexivity].
  cbn [bind]. destruct (if nltb (em_eMin c) _ then _ else _) as [keep g2].
  destruct keep.
  + destruct (new_photon_energy _ _ _ _ _ _ _ _) as [ph g3]. destruct (init_depth E _ g3) as [p4 g4]. discriminate.
  + destruct (init_depth E _ g2) as [p4 g4]. discriminate.
Qed.
Lemma breit_wheeler_exit c p l g : bw_tables_ok (bw_tab c) -> breit_wheeler_interact E c p l g = Exit (-1) ->
  calculate_split E (bw_tab c) (photon_chi (bw_field c) p) g = Exit (-1).
Proof.
  intros HO. unfold breit_wheeler_interact. destruct (_ || _)%bool; [discriminate|]. cbv zeta.
  destruct (interp_ok (t_axis (bw_tab c)) (t_data (bw_tab c)) (t_len (bw_tab c)) (nlog10 (photon_chi (bw_field c) p))) as [y ->];
    [destruct HO as (A & B & C & D & _); lia..|]. cbn [bind].
  destruct (nltb _ _); [|discriminate].
  destruct (split_safe (bw_tab c) (photon_chi (bw_field c) p) g HO) as [(s & g1 & ->)| ->]; [|reflexivity]. cbn [bind].
  destruct (new_lepton E n1 n1 _ _ _ _ _ _) as [po g2]. destruct (new_lepton E n1 (nlit (-1) 0) _ _ _ _ _ g2) as [el g3]. discriminate.
Qed.
Lemma continuous_exit c cl p l g : em_tables_ok (em_tab c) -> continuous_interact E c cl p l g = Exit (-1) ->
  exists eta g1, calculate_chi E (em_tab c) eta g1 = Exit (-1) /\
    (eta = calculate_eta (em_field c) p \/ exists a0, get (h_axis (em_tab c)) 0 = Ok a0 /\ eta = nexp a0).
Proof.
  intros HO. unfold continuous_interact. destruct (_ || _)%bool; [discriminate|].
  destruct (rand_double E n0 n1 g) as [r g1]. destruct (nltb _ r); [discriminate|]. cbv zeta.
  pose proof HO as (A & B & C & D & _). destruct (_ || _)%bool.
  - destruct (get_cases (h_axis (em_tab c)) 0) as [[a0 [HA _]]|[_ HB]]; [|lia]. rewrite HA. cbn [bind].
    destruct (chi_safe (em_tab c) (nexp a0) g1 HO) as [(chi & g2 & HC)| HC]; rewrite HC; cbn [bind].
    + destruct (nltb _ _); [|discriminate]. destruct (new_photon_energy _ _ _ _ _ _ _ _) as [ph g3]. discriminate.
    + intros _. exists (nexp a0), g1. eauto.
  - destruct (interp_ok (h_axis (em_tab c)) (h_data (em_tab c)) (h_len (em_tab c)) (nlog10 (calculate_eta (em_field c) p))) as [y ->]; [lia|lia|lia|].
    cbn [bind]. destruct (chi_safe (em_tab c) (calculate_eta (em_field c) p) g1 HO) as [(chi & g2 & HC)| HC]; rewrite HC; cbn [bind].
    + destruct (nltb _ _); [|discriminate]. destruct (new_photon_energy _ _ _ _ _ _ _ _) as [ph g3]. discriminate.
    + intros _. exists (calculate_eta (em_field c) p), g1. eauto.
Qed.
End Safe.

(** exact reals: sampling ends the program exactly when the argument is past the last but one row *)
Section SafeR.
Local Open Scope R_scope.
Lemma chi_exit_iff (E : Engine R) t eta g : em_tables_ok t -> increasing (ph_axis t) -> (3 <= length (ph_axis t))%nat ->
  calculate_chi E t eta g = Exit (-1) <-> at_ (ph_axis t) (length (ph_axis t) - 2) < ln eta / ln 10.
Proof.
  intros HO HI H3. pose proof HO as (_ & _ & _ & _ & K1 & K2 & K3 & _).
  destruct (closest_points_spec (ph_axis t) (ln eta / ln 10) K1 ltac:(lia) HI) as (C1 & C2 & _).
  split; intros HX.
  - destruct (Rlt_le_dec (at_ (ph_axis t) (length (ph_axis t) - 2)) (ln eta / ln 10)); [auto|].
    destruct (C2 r H3) as (i & f & HC & Hi & _). exfalso. revert HX. unfold calculate_chi.
    destruct (rand_double E n0 n1 g) as [u g1]. rewrite K2. rnum. rewrite HC. cbn [bind fst snd].
    destruct HO as (_ & _ & _ & _ & _ & _ & _ & K4 & K5 & K6 & K7).
    destruct (get_row (ph_data t) (Z.of_nat i) (ph_chiLen t)) as (row & -> & R1); [lia|auto|]. cbn [bind].
    destruct (get_row (ph_chi t) (Z.of_nat i) (ph_chiLen t)) as (cs & -> & R2); [lia|auto|]. cbn [bind].
    destruct (interp_ok row cs (ph_chiLen t) u R1 R2 K6) as [v ->]. cbn [bind].
    destruct (get_row (ph_data t) (Z.of_nat i + 1) (ph_chiLen t)) as (row' & -> & R3); [lia|auto|]. cbn [bind].
    destruct (get_row (ph_chi t) (Z.of_nat i + 1) (ph_chiLen t)) as (cs' & -> & R4); [lia|auto|]. cbn [bind].
    destruct (interp_ok row' cs' (ph_chiLen t) u R3 R4 K6) as [v' ->]. cbn [bind]. discriminate.
  - unfold calculate_chi. destruct (rand_double E n0 n1 g) as [u g1]. rewrite K2. rnum. rewrite C1 by auto. reflexivity.
Qed.
Lemma split_exit_iff (E : Engine R) t chi g : bw_tables_ok t -> increasing (s_chi t) -> (3 <= length (s_chi t))%nat ->
  calculate_split E t chi g = Exit (-1) <-> at_ (s_chi t) (length (s_chi t) - 2) < ln chi / ln 10.
Proof.
  intros HO HI H3. pose proof HO as (_ & _ & _ & _ & K1 & K2 & K3 & _).
  destruct (closest_points_spec (s_chi t) (ln chi / ln 10) K1 ltac:(lia) HI) as (C1 & C2 & _).
  split; intros HX.
  - destruct (Rlt_le_dec (at_ (s_chi t) (length (s_chi t) - 2)) (ln chi / ln 10)); [auto|].
    destruct (C2 r H3) as (i & f & HC & Hi & _). exfalso. revert HX. unfold calculate_split.
    destruct (rand_double E n0 n1 g) as [u g1]. rewrite <- K2 in HC. rnum. rewrite HC. cbn [bind fst snd].
    destruct HO as (_ & _ & _ & _ & _ & _ & _ & K4 & K5 & K7).
    destruct (get_row (s_data t) (Z.of_nat i) (s_len t)) as (row & -> & R1); [lia|auto|]. cbn [bind].
    destruct (interp_ok row (s_fract t) (s_len t) u) as [v ->]; [lia|lia|lia|]. cbn [bind].
    destruct (get_row (s_data t) (Z.of_nat i + 1) (s_len t)) as (row' & -> & R3); [lia|auto|]. cbn [bind].
    destruct (interp_ok row' (s_fract t) (s_len t) u) as [v' ->]; [lia|lia|lia|]. cbn [bind]. discriminate.
  - unfold calculate_split. destruct (rand_double E n0 n1 g) as [u g1]. rewrite <- K2 in C1. rnum. rewrite C1 by auto. reflexivity.
Qed.
End SafeR.
