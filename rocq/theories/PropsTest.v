(** * Property C134: the test program for pair production *)
From Coq Require Import String ZArith Reals Lra Psatz List Bool Ascii Lia.
From Verif Require Import Num RNum Outcome OutcomeFacts Vec SpecVec VecFacts VecExtra SpecDyn SpecTable Units Numerics NumericsFacts NumericsExtra MCTools Particle
  ParticleList ParticleFacts Fields FieldFacts PusherFacts Process ProcessFacts ProcessRFacts ProcessSafe Text SpecNumeral SpecLoad Tables TablesFacts
  SampleFacts PropsNumerics PropsFields PropsProcess PropsLoad PropsSample Shipped ShippedFacts ShippedTables PropsShipped ShippedReal PropsUse PropsPairs Tests.
Import ListNotations.
Local Open Scope R_scope.

(** ** The photon of the test meets the wave head on: chi = 1000 *)
Definition photon_of (u : R) : particle R :=
  mkP PPhoton "Photon" 0 0 1 0 (- ln (1 - u)) false true (v3 0 0 0) (v3 0 0 (-1000)) [] [] [] [].
Lemma test_photon_R (E : Engine R) g : test_photon E g = (photon_of (fst (e_canon E g)), snd (e_canon E g)).
Proof.
  unfold test_photon, new_photon_energy, new_particle, photon_of. rewrite draw_depth_R. f_equal.
  assert (HM : smul (T := R) (nlit 1000 0) (vnorm (mkV (nlit 0 0) (nlit 0 0) (nlit (-1) 0))) = v3 0 0 (-1000)).
  { rewrite smul_R, vnorm_R. rlit. unfold runit.
    assert (HL : rlen (v3 0 0 (-1)) = 1) by (apply rlen_of_len2; [lra|]; runf; ring).
    change (mkV 0 0 (-1)) with (v3 0 0 (-1)). rewrite HL. runf. f_equal; lra. }
  rewrite HM, n0_R, n1_R. rlit. reflexivity.
Qed.
Lemma test_chi u : chi_of test_field (photon_of u) = 1000.
Proof.
  unfold chi_of, test_field. cbn [photon_of p_mom p_time p_pos].
  replace (mkV (nlit (T := R) 0 0) (nlit 0 0) (nlit 1 0)) with (v3 0 0 1) by (rlit; reflexivity).
  assert (G : good_dir (v3 0 0 1)) by apply good_dir_cases.
  set (k := nlit (T := R) 1 0). set (z := nlit (T := R) 0 0).
  pose proof (C26_plane_wave_shape k k z (v3 0 0 1) 0 (v3 0 0 0) G) as SH.
  pose proof (C26_plane_wave_strength k k z (v3 0 0 1) 0 (v3 0 0 0) G) as ST.
  pose proof (C27_plane_wave_polarisation k k z (v3 0 0 1) 0 (v3 0 0 0) G) as PO.
  destruct (plane_field _ _ _) as [e b]. cbn [fst] in ST. destruct SH as (S1 & S2 & S3 & _). destruct PO as [P1 P2].
  assert (U : runit (v3 0 0 1) = v3 0 0 1).
  { unfold runit. assert (HL : rlen (v3 0 0 1) = 1) by (apply rlen_of_len2; [lra|]; runf; ring). rewrite HL. runf. f_equal; lra. }
  assert (K : k = 1) by (unfold k; rlit; reflexivity). assert (Z0 : z = 0) by (unfold z; rlit; reflexivity).
  rewrite U in *. rewrite K, Z0 in *. clear K Z0 k z.
  replace (2 * c_pi / 1 * (rdot (v3 0 0 1) (v3 0 0 0) - 0)) with 0 in ST by (runf; ring).
  rewrite cos_0, Rmult_1_r, Rabs_R1 in ST. rewrite ST in S3.
  assert (E2 : rlen2 e = 1) by (rewrite <- rlen_sq, ST; ring). assert (B2 : rlen2 b = 1) by (rewrite <- rlen_sq, <- S3; ring).
  rewrite E2, Rmult_0_r, cos_0 in P2. destruct e as [ex ey ez], b as [bx by_ bz].
  assert (HL : rlen (v3 0 0 (-1000)) = 1000) by (apply rlen_of_len2; [lra|]; runf; ring).
  unfold runit. rewrite HL. revert S1 S2 E2 B2 P2. runf. intros. inversion P2.
  match goal with |- _ * rlen ?w = _ => assert (HW : rlen w = 2) end.
  { apply rlen_of_len2; [lra|]. runf. assert (ez = 0) by lra. assert (bz = 0) by lra. subst ez bz. nra. }
  rewrite HW. lra.
Qed.

(** what the step takes off the optical depth: the rate is the entry of the table for chi = 1000, energy and chi cancel *)
Definition test_depth : R := 1/10 * c_alpha * Rpower 10 (-123028883219917/100000000000000).
Lemma root_pow p q : (0 < q)%nat -> Rpower 10 (- INR p / INR q) ^ q = / 10 ^ p.
Proof.
  intros Hq. assert (Q : INR q <> 0) by (apply not_0_INR; lia). rewrite <- Rpower_pow by apply exp_pos. rewrite Rpower_mult.
  replace (- INR p / INR q * INR q) with (- INR p) by (field; exact Q). rewrite Rpower_Ropp, Rpower_pow by lra. reflexivity.
Qed.
Lemma test_depth_bounds : 41/1000000 < test_depth < 47/1000000.
Proof.
  unfold test_depth, c_alpha. rlit.
  pose proof (root_pow 5 4 ltac:(lia)) as A. pose proof (root_pow 6 5 ltac:(lia)) as B.
  replace (- INR 5 / INR 4) with (-5/4) in A by (cbn; lra). replace (- INR 6 / INR 5) with (-6/5) in B by (cbn; lra).
  pose proof (pow_le (-5/4) (-123028883219917/100000000000000) ltac:(lra)) as A'.
  pose proof (pow_le (-123028883219917/100000000000000) (-6/5) ltac:(lra)) as B'.
  assert (PA : 0 < Rpower 10 (-5/4)) by apply exp_pos. assert (PB : 0 < Rpower 10 (-6/5)) by apply exp_pos.
  revert A B A' B' PA PB. generalize (Rpower 10 (-5/4)) (Rpower 10 (-6/5)) (Rpower 10 (-123028883219917/100000000000000)).
  intros a b w A B A' B' PA PB.
  assert (562/10000 <= a).
  { destruct (Rle_dec (562/10000) a) as [L|L]; [exact L|exfalso]. pose proof (pow_incr a (562/10000) 4 ltac:(lra)). lra. }
  assert (b <= 635/10000).
  { destruct (Rle_dec b (635/10000)) as [L|L]; [exact L|exfalso]. pose proof (pow_incr (635/10000) b 5 ltac:(lra)). lra. }
  lra.
Qed.

(** one step of the test, in terms of the depth left *)
Lemma test_step (E : Engine R) path t u g : with_pair_tables path t -> u < 1 ->
  let gamma := photon_of u in
  let out := interact E (BreitWheeler (mkBw test_field (nlit 1 (-1)) false t)) gamma (pl_new "List" default_max) g in
  (test_depth <= - ln (1 - u) -> out = Ok (set_depth gamma (- ln (1 - u) - test_depth), pl_new "List" default_max, g)) /\
  (- ln (1 - u) < test_depth -> out = Exit (-1)).
Proof.
  intros HT Hu gamma out. pose proof (shipped_bw_ok path t HT) as OK. destruct HT as (disk & junk & jl & HA & HL).
  destruct (bw_real path disk junk jl _ HA HL) as [(T1 & T2 & T3 & T4 & _) (S1 & S2 & S3 & S4 & S5 & S6 & S7 & S8 & S9 & _)].
  destruct (pair_rate_1000 path disk junk jl _ HA HL) as [X Y].
  assert (L3 : ln 1000 / ln 10 = at_ (t_axis t) 800).
  { rewrite X. change (ln 1000 / ln 10) with (log10 1000). replace 1000 with (10 ^ 3) by lra. rewrite log10_pow. cbn. lra. }
  assert (HI : interpolate1d (t_axis t) (t_data t) (t_len t) (nlog10 1000) = Ok (-123028883219917/100000000000000)).
  { change (nlog10 (T := R) 1000) with (ln 1000 / ln 10). rewrite L3. replace (t_len t) with (Z.of_nat (length (t_axis t))) by (rewrite T2, T1; reflexivity).
    rewrite C06_interpolation_nodes; [rewrite Y; reflexivity|lia|lia|lia|auto|lia]. }
  assert (HS : calculate_split E t 1000 g = Exit (-1)).
  { apply split_exit_iff; auto; [lia|]. rewrite S2. change (100 - 2)%nat with 98%nat. rewrite S9. apply chi_885. lra. }
  unfold out. cbn [interact]. unfold breit_wheeler_interact. cbn [gamma photon_of p_type p_alive orb negb bw_field bw_tab bw_dt].
  fold (photon_of u). fold gamma. rewrite photon_chi_R by reflexivity. rewrite !(test_chi u : chi_of test_field gamma = 1000). rewrite HI. cbn [bind]. cbv zeta.
  set (d := ndiv _ (get_energy gamma)).
  assert (HD : d = test_depth).
  { unfold d, get_energy, gamma. cbn [photon_of p_type p_mom]. rewrite mag_R.
    assert (HL' : rlen (v3 0 0 (-1000)) = 1000) by (apply rlen_of_len2; [lra|]; runf; ring). rewrite HL'. unfold test_depth.
    rnum. rewrite Rpow_Rpower by (rlit; lra). rlit. field. }
  rewrite !HD. clear d HD.
  assert (HP : update_depth gamma test_depth = set_depth gamma (- ln (1 - u) - test_depth)) by reflexivity.
  change (update_depth _ test_depth) with (set_depth gamma (- ln (1 - u) - test_depth)). clear HP. cbn [set_depth p_depth]. rnum.
  destruct (Rltb (- ln (1 - u) - test_depth) 0) eqn:EL; rdestr; split; intros H; try lra; [|reflexivity].
  rewrite HS. reflexivity.
Qed.

(** ** C134: with the tables of the repository the test makes a pair for no draw: it returns 0 with the photon alive and the list
    empty, or ends with -1 (exact reals; [u] is the draw of the constructor of the photon) *)
Theorem C134_no_pair : forall (E : Engine R) junk jl path disk g, tables_at path disk ->
  let u := fst (e_canon E g) in let out := pair_test E junk jl (Some path) disk g in u < 1 ->
  (out = Exit (-1) /\ - ln (1 - u) < test_depth) \/
  (test_depth <= - ln (1 - u) /\ exists p l g', out = Ok (p, l, g') /\ p_alive p = true /\ p_type p = PPhoton /\ pl_n l = 0%Z /\
     p_depth p = - ln (1 - u) - test_depth).
Proof.
  intros E junk jl path disk g HA u out Hu. destruct (C123_pair_tables (T := R) path disk HA) as (t & HL & _).
  assert (HT : with_pair_tables path t) by (exists disk, junk, jl; auto).
  assert (HO : out = interact E (BreitWheeler (mkBw test_field (nlit 1 (-1)) false t)) (photon_of u) (pl_new "List" default_max) (snd (e_canon E g))).
  { unfold out, pair_test. rewrite HL. cbn [bind]. rewrite test_photon_R. reflexivity. }
  destruct (test_step E path t u (snd (e_canon E g)) HT Hu) as [A B]. cbv zeta in A, B. rewrite <- HO in A, B.
  destruct (Rle_dec test_depth (- ln (1 - u))) as [L|L]; [right|left].
  - split; [exact L|]. rewrite (A L). do 3 eexists. split; [reflexivity|]. repeat split.
  - split; [apply B|]; lra.
Qed.
Print Assumptions C134_no_pair.

(** in terms of the draw: up to 4e-5 the end with -1, from 4.7e-5 on return 0 *)
Theorem C134_draws : forall (E : Engine R) junk jl path disk g, tables_at path disk ->
  let u := fst (e_canon E g) in let out := pair_test E junk jl (Some path) disk g in
  (0 <= u <= 40/1000000 -> out = Exit (-1)) /\
  (47/1000000 <= u < 1 -> exists p l g', out = Ok (p, l, g') /\ p_alive p = true /\ pl_n l = 0%Z).
Proof.
  intros E junk jl path disk g HA u out. pose proof test_depth_bounds as TB. split; intros Hu.
  - destruct (C134_no_pair E junk jl path disk g HA) as [[K _]|[K _]]; [fold u; lra|exact K|exfalso]. fold u in K.
    assert (- ln (1 - u) <= u / (1 - u)); [|assert (u / (1 - u) <= 41/1000000)].
    + rewrite <- ln_Rinv by lra. replace (u / (1 - u)) with (/ (1 - u) - 1) by (field; lra).
      assert (P : 0 < / (1 - u)) by (apply Rinv_0_lt_compat; lra).
      pose proof (exp_ineq1_le (ln (/ (1 - u)))) as Q. rewrite exp_ln in Q by exact P. lra.
    + apply Rmult_le_reg_r with (1 - u); [lra|]. unfold Rdiv. rewrite Rmult_assoc, Rinv_l by lra. lra.
    + lra.
  - destruct (C134_no_pair E junk jl path disk g HA) as [[_ K]|[_ (p & l & g' & K & K1 & _ & K2 & _)]]; [fold u; lra|exfalso|eauto 8]. fold u in K.
    pose proof (exp_ineq1_le (ln (1 - u))) as Q. rewrite exp_ln in Q by lra. lra.
Qed.
Print Assumptions C134_draws.

(** any arithmetic: with the tables of the repository nothing else can happen; without the environment variable or a file *)
Theorem C134_outcomes : forall {T} `{Num T} (E : Engine T) junk jl path disk g,
  (tables_at path disk -> (exists r, pair_test E junk jl (Some path) disk g = Ok r) \/ pair_test E junk jl (Some path) disk g = Exit (-1)) /\
  pair_test E junk jl None disk g = UB NullString /\
  ((exists f, In f ["/pairprod.table"; "/e_split.table"; "/epsilon.table"; "/log_chi.table"]%string /\ disk (path ++ f)%string = None) ->
   pair_test E junk jl (Some path) disk g = Exit 1).
Proof.
  intros T HN E junk jl path disk g. split; [|split].
  - intros HA. destruct (C123_pair_tables (T := T) path disk HA) as (t & HL & _). unfold pair_test. rewrite HL. cbn [bind].
    destruct (test_photon E g) as [gamma g1].
    destruct (C126_process_safe E path (BreitWheeler (mkBw test_field (nlit 1 (-1)) false t)) gamma (pl_new "List" default_max) g1) as [(p & l & g' & K)|K].
    + exists disk, junk, jl. auto.
    + left. eauto.
    + right. exact K.
  - reflexivity.
  - intros (f & HF & HD). unfold pair_test, load_bw. cbn [In] in HF.
    destruct HF as [<-|[<-|[<-|[<-|[]]]]]; rewrite HD; repeat (match goal with |- context [match disk ?x with _ => _ end] => destruct (disk x) end); reflexivity.
Qed.
Print Assumptions C134_outcomes.

(** both ends occur *)
Example C134_case : let E u := mkEngine R unit (fun g => (u, g)) (fun n g => (repeat 0 n, g)) in
  tables_at "Tables" (one_disk "Tables" shipped_tables) /\
  pair_test (E 0) (fun _ _ => 0) 0 (Some "Tables"%string) (one_disk "Tables" shipped_tables) tt = Exit (-1) /\
  exists r, pair_test (E (1/2)) (fun _ _ => 0) 0 (Some "Tables"%string) (one_disk "Tables" shipped_tables) tt = Ok r.
Proof.
  intros E. split; [apply C123_case|]. split.
  - apply (C134_draws (E 0)); [apply C123_case|cbn; lra].
  - destruct (C134_draws (E (1/2)) (fun _ _ => 0) 0 "Tables" (one_disk "Tables" shipped_tables) tt) as [_ K]; [apply C123_case|].
    destruct K as (p & l & g' & K & _); [cbn; lra|]. eauto.
Qed.
