(** * Properties C123 to C126: the table files that come with the program *)
From Coq Require Import String ZArith Reals Lra Psatz List Bool Ascii Lia.
From Verif Require Import Num RNum Outcome OutcomeFacts Vec SpecVec VecFacts SpecDyn SpecTable Units Numerics NumericsFacts MCTools Particle ParticleList
  ParticleFacts Fields FieldFacts PusherFacts Process ProcessFacts ProcessRFacts ProcessSafe Text SpecNumeral SpecLoad Tables TablesFacts SampleFacts
  PropsProcess PropsLoad PropsSample Shipped ShippedData ShippedFacts ShippedTables.
Import ListNotations.

(** the files of the directory Tables in the directory [path] *)
Definition tables_at (path : string) (disk : string -> option text) : Prop :=
  forall f x, In (f, x) shipped_tables -> disk (located path f) = Some x.

Lemma disk_em path disk : tables_at path disk ->
  disk (located path "hsokolov.table") = Some h_text /\ disk (located path "ksi_sokolov.table") = Some ksi_text /\
  disk (located path "chimin.table") = Some chimin_text.
Proof. intros H. unfold tables_at, shipped_tables in H. split; [|split]; apply H; [|apply in_cons|do 2 apply in_cons]; apply in_eq. Qed.
Lemma disk_bw path disk : tables_at path disk ->
  disk (located path "pairprod.table") = Some pairs_text /\ disk (located path "e_split.table") = Some split_text /\
  disk (located path "epsilon.table") = Some eps_text /\ disk (located path "log_chi.table") = Some logchi_text.
Proof. intros H. unfold tables_at, shipped_tables in H. split; [|split; [|split]]; apply H; [do 3 apply in_cons|do 4 apply in_cons|do 5 apply in_cons|do 6 apply in_cons]; apply in_eq. Qed.

(** ** C123 *)
(** any arithmetic: the three files of the emission are read to their end, nothing is missing, and nothing depends on
    what was in memory before; the tables are the numbers in the files *)
Theorem C123_emission_tables : forall {T} `{Num T} path disk, tables_at path disk ->
  exists t : em_tables T, (forall junk jl, load_em junk jl (Some path) disk = Ok t) /\
    h_len t = 500%Z /\ ph_etaLen t = 100%Z /\ ph_chiLen t = 100%Z /\
    exists hc rows r1 ec cc lmin lmax data r2 mins r3,
      written h_text (hc :: in_turn rows) r1 /\ written ksi_text (ec :: cc :: lmin :: lmax :: concat data) r2 /\
      written chimin_text mins r3 /\ Forall white (r1 ++ r2 ++ r3) /\
      length rows = 500%nat /\ length data = 100%nat /\ Forall (fun r => length r = 100%nat) data /\ length mins = 100%nat /\
      h_axis t = map (fun x => entry_value (fst x)) rows /\ h_data t = map (fun x => entry_value (snd x)) rows /\
      ph_data t = map (map entry_value) data /\ ph_axis t = eta_axis 100 (entry_value lmin) (entry_value lmax) /\
      ph_chi t = map (fun x => chi_row 100 100 (fst x) (entry_value (snd x))) (combine (ph_axis t) mins).
Proof.
  intros T HT path disk H. destruct (disk_em path disk H) as (D1 & D2 & D3).
  destruct (h_contents h_text h_checked) as (hc & rows & r1 & hl & W1 & B1 & C1 & L1 & _ & _).
  destruct (k_contents ksi_text k_checked) as (ec & cc & lmin & lmax & data & r2 & dx & dy & kl & W2 & B2 & C2 & C3 & _ & _ & _ & _ & L2 & FL & _ & _).
  destruct (c_contents chimin_text c_checked) as (mins & r3 & cl & W3 & B3 & L3 & _).
  set (axis := eta_axis 100 (entry_value lmin) (entry_value lmax)).
  exists (mkEmT (map (fun x => entry_value (fst x)) rows) (map (fun x => entry_value (snd x)) rows) 500
    axis (map (fun x => chi_row 100 100 (fst x) (entry_value (snd x))) (combine axis mins)) (map (map entry_value) data) 100 100).
  split.
  { intros junk jl.
    destruct (C97_emission_tables junk jl path disk h_text ksi_text chimin_text hc rows r1 ec cc lmin lmax data r2 mins r3 100)
      as (t & HL & E1 & E2 & E3 & E4 & E5 & E6 & E7 & E8); auto; try congruence.
    rewrite HL. f_equal. destruct t as [a b n x y z m k].
    cbn [h_len h_axis h_data ph_etaLen ph_chiLen ph_data ph_axis ph_chi] in *. rewrite L1 in E1. rewrite L2 in E4, E7, E8.
    change (Z.of_nat 500) with 500%Z in *. change (Z.of_nat 100) with 100%Z in *. subst a b n z m k x. fold axis in E8 |- *. now rewrite E8. }
  repeat (split; [reflexivity|]). exists hc, rows, r1, ec, cc, lmin, lmax, data, r2, mins, r3.
  repeat (split; [assumption|]). split; [rewrite !Forall_app; auto|]. repeat (split; [assumption|]). repeat (split; [reflexivity|]). reflexivity.
Qed.
Print Assumptions C123_emission_tables.

Theorem C123_pair_tables : forall {T} `{Num T} path disk, tables_at path disk ->
  exists t : bw_tables T, (forall junk jl, load_bw junk jl (Some path) disk = Ok t) /\
    t_len t = 1301%Z /\ s_len t = 100%Z /\
    exists tc rows r1 fc data r2 eps r3 chis r4,
      written pairs_text (tc :: in_turn rows) r1 /\ written split_text (fc :: concat data) r2 /\
      written eps_text eps r3 /\ written logchi_text chis r4 /\ Forall white (r1 ++ r2 ++ r3 ++ r4) /\
      length rows = 1301%nat /\ length data = 100%nat /\ Forall (fun r => length r = 100%nat) data /\
      length eps = 100%nat /\ length chis = 100%nat /\
      t_axis t = map (fun x => entry_value (fst x)) rows /\ t_data t = map (fun x => entry_value (snd x)) rows /\
      s_data t = map (map entry_value) data /\ s_chi t = map entry_value chis /\ s_fract t = map entry_value eps.
Proof.
  intros T HT path disk H. destruct (disk_bw path disk H) as (D1 & D2 & D3 & D4).
  destruct (t_contents pairs_text t_checked) as (tc & rows & r1 & hl & W1 & B1 & C1 & L1 & _ & _).
  destruct (s_contents split_text s_checked) as (fc & data & r2 & kl & W2 & B2 & C2 & L2 & FL & _ & _).
  destruct (e_contents eps_text e_checked) as (eps & r3 & el & W3 & B3 & L3 & _ & _).
  destruct (l_contents logchi_text l_checked) as (chis & r4 & ll & W4 & B4 & L4 & _ & _).
  exists (mkBwT (map (fun x => entry_value (fst x)) rows) (map (fun x => entry_value (snd x)) rows) 1301
    (map entry_value chis) (map entry_value eps) (map (map entry_value) data) 100).
  split.
  { intros junk jl.
    destruct (C97_pair_tables junk jl path disk pairs_text split_text eps_text logchi_text tc rows r1 fc data r2 eps r3 chis r4)
      as (t & HL & E1 & E2 & E3 & E4 & E5 & E6 & E7); auto; try congruence; try (rewrite L2; assumption).
    rewrite HL. f_equal. destruct t as [a b n x y z m].
    cbn [t_len t_axis t_data s_len s_data s_chi s_fract] in *. rewrite L1 in E1. rewrite L2 in E4.
    change (Z.of_nat 1301) with 1301%Z in *. change (Z.of_nat 100) with 100%Z in *. subst a b n z m x y. reflexivity. }
  repeat (split; [reflexivity|]). exists tc, rows, r1, fc, data, r2, eps, r3, chis, r4.
  repeat (split; [assumption|]). split; [rewrite !Forall_app; auto|]. repeat (split; [assumption|]). repeat (split; [reflexivity|]). reflexivity.
Qed.
Print Assumptions C123_pair_tables.

(** a disk with these files in its directory Tables *)
Definition one_disk (path : string) (l : list (string * text)) (name : string) : option text :=
  option_map snd (find (fun e => String.eqb (located path (fst e)) name) l).
Lemma one_disk_at path l f x : NoDup (map (fun e => located path (fst e)) l) -> In (f, x) l -> one_disk path l (located path f) = Some x.
Proof.
  unfold one_disk. induction l as [|[f0 x0] l IH]; [intros _ []|]. cbn [map fst find]. intros ND HI. inversion ND as [|? ? N1 N2]; subst.
  destruct HI as [HI|HI].
  - injection HI as E1 E2. rewrite E1, E2. rewrite String.eqb_refl. reflexivity.
  - destruct (String.eqb_spec (located path f0) (located path f)) as [EQ|NE]; [|exact (IH N2 HI)].
    exfalso. apply N1. rewrite EQ. apply (in_map (fun e => located path (fst e)) l (f, x) HI).
Qed.
Example C123_case : tables_at "Tables" (one_disk "Tables" shipped_tables) /\ one_disk "Tables" shipped_tables "Tables/none" = None.
Proof.
  split.
  - intros f x HI. apply one_disk_at; [|exact HI]. unfold shipped_tables. cbn [map fst].
    repeat (constructor; [cbv; intuition discriminate|]). constructor.
  - reflexivity.
Qed.
