(** * Properties C125, C126: pair production with the shipped tables, memory safety with the shipped tables *)
From Coq Require Import String ZArith Reals Lra Psatz List Bool Ascii Lia.
From Verif Require Import Num RNum Outcome OutcomeFacts Vec SpecVec VecFacts VecExtra SpecDyn SpecTable Units Numerics NumericsFacts NumericsExtra MCTools Particle
  ParticleList ParticleFacts Fields FieldFacts PusherFacts Process ProcessFacts ProcessRFacts ProcessSafe Text SpecNumeral SpecLoad Tables TablesFacts
  SampleFacts Sim PropsProcess PropsSim PropsLoad PropsSample Shipped ShippedFacts ShippedTables PropsShipped ShippedReal PropsUse.
Import ListNotations.
Local Open Scope R_scope.

Lemma bracket (sp : list R) q : (3 <= length sp)%nat -> (Z.of_nat (length sp) < 2 ^ 31)%Z -> increasing sp ->
  at_ sp 0 < q <= at_ sp (length sp - 2) -> exists i, (S i <= length sp - 2)%nat /\ at_ sp i < q <= at_ sp (S i).
Proof.
  intros N B INC HQ. destruct (closest_points_spec sp q ltac:(lia) B INC) as (_ & S2 & _).
  destruct (S2 ltac:(lra) N) as (i & f & _ & I1 & I2 & I3 & _). specialize (I3 ltac:(lra)). exists i. split; [exact I1|].
  pose proof (INC i (S i) ltac:(lia)). nra.
Qed.

(** 1/199 <= chi <= 95 lies in the rows 0 to 80, 110 <= chi <= 883 in the rows 81 to 98 *)
Lemma chi_low chi : 1/199 <= chi <= 95 -> -23/10 <= log10 chi <= 198/100.
Proof.
  intros H. split.
  - apply Rle_trans with (log10 (1/199)); [|apply log10_le; lra]. replace (1/199) with (/199) by lra. unfold log10. rewrite ln_Rinv by lra.
    assert (log10 199 <= 23/10); [|unfold log10 in *; lra]. replace (23/10) with (INR 23/INR 10) by (rewrite !INR_IZR_INZ; cbn [Z.of_nat]; f_equal).
    apply log10_le_frac; [lra|lia|cbn [pow]; lra].
  - apply Rle_trans with (log10 95); [apply log10_le; lra|]. replace (198/100) with (INR 99/INR 50) by (rewrite !INR_IZR_INZ; cbn [Z.of_nat Pos.of_succ_nat Pos.succ]; lra).
    apply log10_le_frac; [lra|lia|cbn [pow]; lra].
Qed.
Lemma chi_high chi : 110 <= chi -> 2038/1000 <= log10 chi.
Proof.
  intros H. apply Rle_trans with (log10 110); [|apply log10_le; lra].
  apply Rle_trans with (INR 51/INR 25); [rewrite !INR_IZR_INZ; cbn [Z.of_nat Pos.of_succ_nat Pos.succ]; lra|].
  apply Rlt_le, log10_ge_frac; [lra|lia|cbn [pow]; lra].
Qed.
Lemma chi_883 chi : 0 < chi <= 883 -> log10 chi <= 29464542424680418/10000000000000000.
Proof.
  intros H. apply Rle_trans with (log10 883); [apply log10_le; lra|].
  apply Rle_trans with (INR 165/INR 56); [apply log10_le_frac; [lra|lia|cbn [pow]; lra]|rewrite !INR_IZR_INZ; cbn [Z.of_nat Pos.of_succ_nat Pos.succ]; lra].
Qed.
Lemma chi_885 chi : 885 <= chi -> 29464542424680418/10000000000000000 < log10 chi.
Proof.
  intros H. apply Rlt_le_trans with (log10 885); [|apply log10_le; lra].
  apply Rlt_trans with (INR 221/INR 75); [rewrite !INR_IZR_INZ; cbn [Z.of_nat Pos.of_succ_nat Pos.succ]; lra|].
  apply log10_ge_frac; [lra|lia|cbn [pow]; lra].
Qed.

(** one row: a draw gives a fraction of at least 0 if the first probability is at most half the second *)
Lemma row_fraction r fr u : split_row r -> length fr = 100%nat -> increasing fr -> at_ fr 0 = 1/100 -> at_ fr 1 = 2/100 ->
  2 * at_ r 0 <= at_ r 1 -> 0 <= u < 1 -> exists v, interpolate1d r fr 100 u = Ok v /\ 0 <= v <= at_ fr 99.
Proof.
  intros (L & MON & P0 & P99) LF INC F0 F1 HH HU.
  assert (F99 : forall j, (j < 100)%nat -> 1/100 <= at_ fr j <= at_ fr 99).
  { intros j Hj. rewrite <- F0. split.
    - destruct j; [lra|]. apply Rlt_le, INC. lia.
    - destruct (Nat.eq_dec j 99) as [->|D]; [lra|]. apply Rlt_le, INC. lia. }
  change 100%Z with (Z.of_nat 100). rewrite <- L. destruct (Rlt_dec u (at_ r 0)) as [D|D].
  - rewrite interp_below; [|lia|lia|auto]. eexists. split; [reflexivity|]. unfold segment, line. rewrite F0, F1.
    set (r0 := at_ r 0) in *. set (r1 := at_ r 1) in *. assert (PD : 0 < r1 - r0) by lra.
    assert (HQ : (u - r0) * (2 / 100 - 1 / 100) / (r1 - r0) * (r1 - r0) = (u - r0) * (1/100)) by (field; lra).
    set (z := (u - r0) * (2 / 100 - 1 / 100) / (r1 - r0)) in *. pose proof (F99 0%nat ltac:(lia)). rewrite F0 in *. split; nra.
  - destruct (interp_inside r fr ltac:(lia) ltac:(lia) ltac:(lia) u) as (i & I1 & I2 & I3).
    { rewrite L. change (100 - 1)%nat with 99%nat. lra. }
    eexists. split; [exact I3|]. pose proof (segment_between r fr i u ltac:(lra) ltac:(lra)) as [S1 S2].
    pose proof (F99 i ltac:(lia)). pose proof (F99 (S i) ltac:(lia)). split.
    + eapply Rle_trans; [|exact S1]. apply Rmin_glb; lra.
    + eapply Rle_trans; [exact S2|]. apply Rmax_lub; lra.
Qed.

(** ** C125: the split of a pair *)
(** 1/199 <= chi <= 95: every draw gives a fraction between 0 and 1 (up to the last entry of the axis, 1.0000000000000007) *)
Theorem C125_fraction : forall (E : Engine R) path t chi g, with_pair_tables path t -> (forall g, 0 <= fst (e_canon E g) < 1) ->
  1/199 <= chi <= 95 -> exists s g', calculate_split E t chi g = Ok (s, g') /\ 0 <= s <= 10000000000000007/10000000000000000.
Proof.
  intros E path t chi g HT HU HC. pose proof (shipped_bw_ok path t HT) as OK. destruct HT as (disk & junk & jl & HA & HL).
  destruct (bw_real path disk junk jl t HA HL) as [_ (S1 & S2 & S3 & S4 & S5 & S6 & S7 & S8 & S9 & F1 & F2 & F3 & F4 & R1 & R2 & R3)].
  pose proof (chi_low chi HC) as HLG.
  assert (M : at_ (s_chi t) 80 < at_ (s_chi t) 98) by (apply S5; lia).
  destruct (bracket (s_chi t) (log10 chi)) as (k & K1 & K2); [lia|lia|auto|rewrite S2; cbn [Nat.sub]; lra|].
  assert (K : (S k <= 80)%nat).
  { destruct (Nat.le_gt_cases (S k) 80) as [A|A]; [exact A|]. exfalso. assert (at_ (s_chi t) 80 <= at_ (s_chi t) k); [|lra].
    destruct (Nat.eq_dec k 80) as [->|D]; [lra|]. apply Rlt_le, S5. lia. }
  destruct (split_value E t chi g k OK S5 K1 K2) as (f & v & w & F & HV & HW & ->). rewrite S1 in HV, HW.
  destruct (row_fraction (row_of (s_data t) k) (s_fract t) (fst (e_canon E g))) as (v' & V1 & V2); auto; [apply R1; lia|apply R2; lia|].
  destruct (row_fraction (row_of (s_data t) (S k)) (s_fract t) (fst (e_canon E g))) as (w' & W1 & W2); auto; [apply R1; lia|].
  rewrite HV in V1. rewrite HW in W1. inversion V1; subst v'. inversion W1; subst w'. rewrite F4 in *.
  eexists. eexists. split; [reflexivity|]. nra.
Qed.
Print Assumptions C125_fraction.

(** 110 <= chi <= 883: every draw below 0.0006 gives a negative fraction *)
Theorem C125_negative_fraction : forall (E : Engine R) path t chi g, with_pair_tables path t ->
  110 <= chi <= 883 -> 0 <= fst (e_canon E g) < 6/10000 ->
  exists s g', calculate_split E t chi g = Ok (s, g') /\ s < 0.
Proof.
  intros E path t chi g HT HC HU. pose proof (shipped_bw_ok path t HT) as OK. destruct HT as (disk & junk & jl & HA & HL).
  destruct (bw_real path disk junk jl t HA HL) as [_ (S1 & S2 & S3 & S4 & S5 & S6 & S7 & S8 & S9 & F1 & F2 & F3 & F4 & R1 & R2 & R3)].
  pose proof (chi_high chi ltac:(lra)) as HLG. pose proof (chi_883 chi ltac:(lra)) as HLH.
  destruct (bracket (s_chi t) (log10 chi)) as (k & K1 & K2); [lia|lia|auto|rewrite S2; cbn [Nat.sub]; lra|].
  assert (K : (81 <= k)%nat).
  { destruct (Nat.le_gt_cases 81 k) as [A|A]; [exact A|]. exfalso. assert (at_ (s_chi t) (S k) <= at_ (s_chi t) 81); [|lra].
    destruct (Nat.eq_dec k 80) as [->|D]; [lra|]. apply Rlt_le, S5. lia. }
  apply (C100_split_negative E t chi g k OK S5 K1 K2); [lra|].
  intros i Hi. destruct (R3 i ltac:(lia)) as [A B]. split; [exact A|]. rewrite F2, F3.
  replace (1/100 * ((at_ (row_of (s_data t) i) 1 - at_ (row_of (s_data t) i) 0) / (2/100 - 1/100)))
    with (at_ (row_of (s_data t) i) 1 - at_ (row_of (s_data t) i) 0) by lra. lra.
Qed.
Print Assumptions C125_negative_fraction.

(** chi <= 883: never an end of the program; chi >= 885: no photon ever becomes a pair, the program ends instead *)
Theorem C125_range : forall (E : Engine R) path c p l g, with_pair_tables path (bw_tab c) ->
  p_type p = PPhoton -> p_mom p <> rzero -> p_alive p = true ->
  let chi := chi_of (bw_field c) p in
  (0 < chi <= 883 -> exists p' l' g', interact E (BreitWheeler c) p l g = Ok (p', l', g')) /\
  (885 <= chi -> interact E (BreitWheeler c) p l g = Exit (-1) \/
     exists p', interact E (BreitWheeler c) p l g = Ok (p', l, g) /\ 0 <= p_depth p' /\ p' = set_depth p (p_depth p')).
Proof.
  intros E path c p l g HT H1 H3 H4 chi.
  pose proof (shipped_bw_ok path _ HT) as OK. destruct HT as (disk & junk & jl & HA & HL).
  destruct (bw_real path disk junk jl _ HA HL) as [_ (S1 & S2 & S3 & S4 & S5 & S6 & S7 & S8 & S9 & _)].
  destruct (C77_no_undefined_access E (BreitWheeler c) p l g OK) as [(p' & l' & g' & HI)|HX].
  - split; intros He; [eauto|]. right.
    destruct (breit_wheeler_cases E c p l g p' l' g' H1 H4 H3 HI) as (y & _ & HC). cbv zeta in HC. fold chi in HC.
    destruct HC as [(D & HP & -> & ->)|(_ & _ & s & g1 & po & el & HC & _)].
    + exists p'. split; [exact HI|]. rewrite HP. cbn [set_depth p_depth]. split; [exact D|reflexivity].
    + exfalso. assert (HE : calculate_split E (bw_tab c) chi g = Exit (-1)); [|congruence].
      apply split_exit_iff; auto; [lia|]. rewrite S2. change (100 - 2)%nat with 98%nat. rewrite S9. apply chi_885. exact He.
  - split; intros He; [|now left]. exfalso. apply C77_pair_exit_beyond_table in HX; auto; [|lia|apply He].
    fold chi in HX. rewrite S2 in HX. change (100 - 2)%nat with 98%nat in HX. rewrite S9 in HX.
    pose proof (chi_883 chi He) as Q. unfold log10 in Q. lra.
Qed.
Print Assumptions C125_range.

(** the energies of the pair: for 1/199 <= chi <= 95 those of the photon to within 1.4e-15; for 110 <= chi <= 883 and a draw below
    0.0006 more than that of the photon (the two shares must carry a rest mass each) *)
Theorem C125_pair_energy : forall (E : Engine R) path c p l g p' l' g', with_pair_tables path (bw_tab c) ->
  (forall g, 0 <= fst (e_canon E g) < 1) ->
  p_type p = PPhoton -> p_mom p <> rzero -> p_alive p = true ->
  interact E (BreitWheeler c) p l g = Ok (p', l', g') -> p_alive p' = false ->
  let chi := chi_of (bw_field c) p in
  1/199 <= chi <= 95 \/ (110 <= chi <= 883 /\ fst (e_canon E g) < 6/10000) ->
  exists s g1, calculate_split E (bw_tab c) chi g = Ok (s, g1) /\
    (1 <= Rabs s * get_energy p -> 1 <= Rabs (1 - s) * get_energy p ->
     exists po el, l' = pl_add (pl_add l po) el /\
       (1/199 <= chi <= 95 -> get_energy p <= get_energy po + get_energy el <= (1 + 14/10000000000000000) * get_energy p) /\
       (110 <= chi -> get_energy p < get_energy po + get_energy el)).
Proof.
  intros E path c p l g p' l' g' HT HU H1 H3 H4 HI Hd chi HC.
  assert (HS : exists s g1, calculate_split E (bw_tab c) chi g = Ok (s, g1) /\
     (1/199 <= chi <= 95 -> 0 <= s <= 10000000000000007/10000000000000000) /\ (110 <= chi -> s < 0)).
  { destruct HC as [HC|[HC HX]].
    - destruct (C125_fraction E path _ chi g HT HU HC) as (s & g1 & K & B). exists s, g1. repeat split; auto; lra.
    - destruct (C125_negative_fraction E path _ chi g HT HC) as (s & g1 & K & B); [pose proof (HU g); lra|]. exists s, g1. repeat split; auto; lra. }
  destruct HS as (s & g1 & HS & B1 & B2). exists s, g1. split; [exact HS|]. intros Q1 Q2.
  destruct (C100_pair_energy E c p l g p' l' g' s g1 H1 H4 H3 HI Hd HS Q1 Q2) as (po & el & L & EQ & _ & G).
  exists po, el. split; [exact L|].
  assert (PE : 0 < get_energy p) by (pose proof (Rabs_pos s); nra).
  split; intros HR; [|apply G; left; auto]. specialize (B1 HR). rewrite EQ.
  assert (AB : 1 <= Rabs s + Rabs (1 - s) <= 1 + 14/10000000000000000).
  { unfold Rabs. destruct (Rcase_abs s), (Rcase_abs (1 - s)); lra. }
  split; nra.
Qed.
Print Assumptions C125_pair_energy.

(** the number of pairs expected in a step, for 1e-5 <= chi < 1e8: at least that of logt = -580, at most that of logt = -0.695 *)
Theorem C125_pair_number : forall (E : Engine R) path c p l g p' l' g', with_pair_tables path (bw_tab c) ->
  p_type p = PPhoton -> p_mom p <> rzero -> p_alive p = true -> 0 <= bw_dt c ->
  let chi := chi_of (bw_field c) p in 1/100000 <= chi < 100000000 ->
  interact E (BreitWheeler c) p l g = Ok (p', l', g') ->
  let number t := bw_dt c * (c_alpha * chi * Rpower 10 t / rlen (p_mom p)) in
  exists d, number (-580) <= d <= number (-695/1000) /\
    (d <= p_depth p /\ p' = set_depth p (p_depth p - d) /\ l' = l /\ g' = g \/ p_depth p < d /\ p_alive p' = false).
Proof.
  intros E path c p l g p' l' g' HT H1 H3 H4 Hdt chi HC HI number. destruct HT as (disk & junk & jl & HA & HL).
  destruct (bw_real path disk junk jl _ HA HL) as [(T1 & T2 & T3 & T4 & T5 & T6 & T7) _].
  destruct (breit_wheeler_cases E c p l g p' l' g' H1 H4 H3 HI) as (y & HY & HB). cbv zeta in HB. fold chi in HY, HB.
  change (ln chi / ln 10) with (log10 chi) in HY.
  assert (Q1 : -5 <= log10 chi).
  { replace (-5) with (- INR 5) by (cbn; ring). rewrite <- log10_inv_pow. apply log10_le. replace (/ 10 ^ 5) with (1/100000) by lra. lra. }
  assert (Q2 : log10 chi < 8).
  { replace 8 with (INR 8) by (cbn; ring). rewrite <- log10_pow. apply log10_lt. replace (10 ^ 8) with 100000000 by lra. lra. }
  assert (YB : -580 <= y <= -695/1000).
  { replace (t_len (bw_tab c)) with (Z.of_nat (length (t_axis (bw_tab c)))) in HY by (rewrite T2, T1; reflexivity).
    destruct (interp_inside_full (t_axis (bw_tab c)) (t_data (bw_tab c)) (log10 chi)) as (i & r & I1 & I2 & I3 & _ & I4);
      [lia|lia|rewrite T2; lia|auto|rewrite T2; cbn [Nat.sub]; lra|].
    rewrite HY in I3. inversion I3; subst r. pose proof (T7 i ltac:(lia)). pose proof (T7 (S i) ltac:(lia)).
    split; [eapply Rle_trans; [|apply I4]; apply Rmin_glb; lra|eapply Rle_trans; [apply I4|]; apply Rmax_lub; lra]. }
  rewrite Rpow_Rpower in HB by lra. exists (number y).
  assert (PL : 0 < rlen (p_mom p)) by (apply rlen_pos; auto).
  assert (CA : 0 < c_alpha (T := R)) by (unfold c_alpha; rlit; lra).
  split.
  - assert (MONO : forall a b, a <= b -> number a <= number b).
    { intros a b Hab. unfold number. apply Rmult_le_compat_l; [exact Hdt|]. apply Rmult_le_compat_r; [apply Rlt_le, Rinv_0_lt_compat; auto|].
      apply Rmult_le_compat_l; [nra|]. apply pow_le. exact Hab. }
    split; apply MONO; lra.
  - replace (number y) with (c_alpha * chi * Rpower 10 y / rlen (p_mom p) * bw_dt c) by (unfold number; ring).
    set (d := c_alpha * chi * Rpower 10 y / rlen (p_mom p) * bw_dt c) in *.
    destruct HB as [(D & HP & -> & ->)|(D & HP & _)]; [left; repeat split; auto; lra|right]. rewrite HP. split; [lra|reflexivity].
Qed.
Print Assumptions C125_pair_number.

(** ** C126: with the shipped tables no process and no run ever leaves an array *)
Definition uses_shipped {T} `{Num T} (path : string) (pr : process T) : Prop :=
  match pr with
  | Stochastic c | Continuous c _ => with_emission_tables path (em_tab c)
  | BreitWheeler c => with_pair_tables path (bw_tab c)
  end.

Theorem C126_process_safe : forall {T} `{Num T} (E : Engine T) path (pr : process T) (p : particle T) l g, uses_shipped path pr ->
  (exists p' l' g', interact E pr p l g = Ok (p', l', g')) \/ interact E pr p l g = Exit (-1).
Proof.
  intros T HN E path pr p l g HU. apply C77_no_undefined_access.
  destruct pr as [c|c cl|c]; cbn [uses_shipped process_ok] in *; [eapply shipped_em_ok|eapply shipped_em_ok|eapply shipped_bw_ok]; eauto.
Qed.
Print Assumptions C126_process_safe.

Theorem C126_run_safe : forall (E : Engine R) (w : world R) S htimes fill tEnd path l g (h : S), 0 < w_dt w ->
  (forall pr, In pr (w_procs w) -> uses_shipped path pr) -> (pl_n l <= pl_max l)%Z ->
  (forall i t ps x, exists x', fill i t ps x = Ok x') ->
  exists N, forall fuel, (N <= fuel)%nat ->
    (exists s', run_event E w htimes fill fuel tEnd l g h = Ok s' /\ (pl_n (st_ev _ s') <= pl_max l)%Z) \/
    run_event E w htimes fill fuel tEnd l g h = Exit (-1).
Proof.
  intros E w S htimes fill tEnd path l g h Hd HO HW HF. apply C78_run_memory_safe; auto. intros pr HI. specialize (HO pr HI).
  destruct pr as [c|c cl|c]; cbn [uses_shipped process_ok] in *; [eapply shipped_em_ok|eapply shipped_em_ok|eapply shipped_bw_ok]; eauto.
Qed.
Print Assumptions C126_run_safe.

(** ** Cases *)
Lemma have_pair_tables {T} `{Num T} : exists t : bw_tables T, with_pair_tables "Tables" t.
Proof.
  destruct (C123_pair_tables (T := T) "Tables" _ (proj1 C123_case)) as (t & HL & _).
  exists t, (one_disk "Tables" shipped_tables), (fun _ _ => n0), 0%Z. split; [apply C123_case|apply HL].
Qed.
(** a photon of energy [en] in a field that gives it chi = [x] *)
Definition one_photon (en : R) : particle R := mkP PPhoton "Photon" 0 0 1 0 0 false true (v3 0 0 0) (v3 en 0 0) [] [] [] [].
Definition chi_field (x en : R) : field R := fun _ _ => (v3 0 (2 * x / en) 0, rzero).
Lemma one_chi x en : 0 < en -> 0 <= x -> chi_of (chi_field x en) (one_photon en) = x.
Proof.
  intros He Hx. unfold chi_of, chi_field. cbn [one_photon p_mom].
  assert (HL : rlen (v3 en 0 0) = en) by (apply rlen_of_len2; [lra|]; runf; ring).
  unfold runit. rewrite HL.
  match goal with |- _ * rlen ?w = _ => assert (HW : rlen w = 2 * x / en) by
    (apply rlen_of_len2; [apply Rmult_le_pos; [lra|apply Rlt_le, Rinv_0_lt_compat; auto]|]; runf; field; lra) end.
  rewrite HW. field. lra.
Qed.
Lemma one_energy en : 0 < en -> get_energy (one_photon en) = en.
Proof. intros H. unfold get_energy. cbn [one_photon p_type p_mom]. rewrite mag_R. apply rlen_of_len2; [lra|]; runf; ring. Qed.

(** with no optical depth left a photon becomes a pair at the first step *)
Lemma one_dies (E : Engine R) t x en g : with_pair_tables "Tables" t -> 0 < en -> 1/100000 <= x <= 883 ->
  exists p' l' g', interact E (BreitWheeler (mkBw (chi_field x en) 1 false t)) (one_photon en) ex_list g = Ok (p', l', g') /\ p_alive p' = false.
Proof.
  intros HT He Hx. set (c := mkBw (chi_field x en) 1 false t). assert (P : p_mom (one_photon en) <> rzero) by (cbn; apply v3_neq; left; lra).
  assert (CH : chi_of (bw_field c) (one_photon en) = x) by (apply one_chi; lra).
  destruct (C125_range E "Tables" c (one_photon en) ex_list g HT eq_refl P eq_refl) as [HR _]. rewrite CH in HR.
  destruct (HR ltac:(lra)) as (p' & l' & g' & HI). exists p', l', g'. split; [exact HI|].
  destruct (C125_pair_number E "Tables" c (one_photon en) ex_list g p' l' g' HT eq_refl P eq_refl) as (d & [D1 _] & D3); [cbn; lra| |exact HI|].
  { rewrite CH. lra. }
  rewrite CH in D1. cbn [c bw_dt one_photon p_depth p_mom] in D1, D3. destruct D3 as [(D3 & _)|[_ D3]]; [exfalso|exact D3].
  assert (0 < rlen (v3 en 0 0)) by (apply rlen_pos; exact P). pose proof c_alpha_pos. assert (0 < Rpower 10 (-580)) by apply exp_pos.
  assert (0 < 1 * (c_alpha * x * Rpower 10 (-580) / rlen (v3 en 0 0))); [|lra].
  rewrite Rmult_1_l. apply Rdiv_lt_0_compat; [|auto]. apply Rmult_lt_0_compat; [nra|auto].
Qed.

Example C125_case : exists t p' l' g', with_pair_tables "Tables" t /\
  interact neg_engine (BreitWheeler (mkBw (chi_field 10 1000) 1 false t)) (one_photon 1000) ex_list tt = Ok (p', l', g') /\
  p_alive p' = false /\ chi_of (chi_field 10 1000) (one_photon 1000) = 10.
Proof.
  destruct (have_pair_tables (T := R)) as (t & HT). destruct (one_dies neg_engine t 10 1000 tt HT) as (p' & l' & g' & HI & HD); [lra|lra|].
  exists t, p', l', g'. repeat (split; auto). apply one_chi; lra.
Qed.

(** with the shipped tables: a photon with chi = 200 whose pair has more energy than it had *)
Theorem C125_energy_conservation_refuted : exists (E : Engine R) t c g p p' po el g', with_pair_tables "Tables" t /\ bw_tab c = t /\
  (forall g, 0 <= fst (e_canon E g) < 1) /\ p_type p = PPhoton /\ p_alive p = true /\ chi_of (bw_field c) p = 200 /\
  interact E (BreitWheeler c) p ex_list g = Ok (p', pl_add (pl_add ex_list po) el, g') /\ p_alive p' = false /\
  get_energy p < get_energy po + get_energy el.
Proof.
  destruct (have_pair_tables (T := R)) as (t & HT).
  set (E := mkEngine R unit (fun g => (0, g)) (fun n g => (repeat 0 n, g))).
  assert (HU : forall g : est E, 0 <= fst (e_canon E g) < 1) by (intros; cbn; lra).
  destruct (C125_negative_fraction E "Tables" t 200 tt HT) as (s & g1 & HS & NS); [lra|cbn; lra|].
  set (en := / (- s) + 1). assert (IP : 0 < / (- s)) by (apply Rinv_0_lt_compat; lra). assert (EP : 0 < en) by (unfold en; lra).
  set (c := mkBw (chi_field 200 en) 1 false t).
  assert (CH : chi_of (bw_field c) (one_photon en) = 200) by (apply one_chi; lra).
  destruct (one_dies E t 200 en tt HT EP ltac:(lra)) as (p' & l' & g' & HI & HD). fold c in HI.
  destruct (C125_pair_energy E "Tables" c (one_photon en) ex_list tt p' l' g' HT HU eq_refl ltac:(cbn; apply v3_neq; left; lra) eq_refl HI HD)
    as (s' & g2 & HS' & HB).
  { right. rewrite CH. split; [lra|cbn; lra]. }
  rewrite CH in HS', HB. cbn [c bw_tab] in HS'. rewrite HS in HS'. inversion HS'; subst s' g2. rewrite one_energy in HB by exact EP.
  assert (M : / - s * - s = 1) by (field; lra).
  destruct HB as (po & el & HL & _ & HB).
  - rewrite Rabs_left by exact NS. unfold en. nra.
  - rewrite Rabs_right by lra. unfold en. nra.
  - subst l'. exists E, t, c, tt, (one_photon en), p', po, el, g'. split; [exact HT|]. do 5 (split; [auto|]). split; [exact HI|]. split; [exact HD|].
    rewrite one_energy by exact EP. apply HB. lra.
Qed.
Print Assumptions C125_energy_conservation_refuted.

Example C126_case : exists t u, uses_shipped "Tables" (Stochastic (mkEm (along_field 1) (1/10) 1 0 false t)) /\
  uses_shipped "Tables" (Continuous (mkEm (along_field 1) (1/10) 1 0 false t) true) /\
  uses_shipped "Tables" (BreitWheeler (mkBw (chi_field 10 1000) 1 false u)).
Proof.
  destruct (have_pair_tables (T := R)) as (u & HU). destruct (have_emission_tables (T := R)) as (t & HT). exists t, u. repeat split; assumption.
Qed.
