(** * C146: the counts of histograms in binary64, in serial runs and in runs with MPI *)
From Coq Require Import String ZArith Reals Lra List Bool Lia Arith Permutation.
From Coq Require Import Floats.SpecFloat.
From Flocq Require Import Core.Zaux Core.Raux Core.Defs Core.Generic_fmt IEEE754.BinarySingleNaN.
From Verif Require Import Num RNum Outcome OutcomeFacts F64Facts F64Real F64Draw F64Hist Vec Units MCTools Particle ParticleList Source Fields Pusher Process Sim SimFacts SimTime Histogram HistFacts Hdf5 Output
  OutFacts OutFile Text Ini IniReader Mpi MpiFacts MpiGather MpiHist PropsTables PropsOut Program ProgramFacts PropsMpi PropsProgram MpiProgram PropsMpiRun.
From Verif Require FileParser.
Import ListNotations.
Local Open Scope string_scope.
Local Open Scope list_scope.

(** ** Specification *)
(** the double [x] is the count [k]: a whole number from 0 to 2^53 *)
Definition counts (x : spec_float) (k : Z) : Prop := dbl x (IZR k) /\ (0 <= k <= 2 ^ 53)%Z.
(** what several runs have counted together in bin [i] *)
Definition together (kss : list (list Z)) (i : nat) : Z := fold_right Z.add 0%Z (map (fun ks => nth i ks 0%Z) kss).

(** ** A histogram *)
Lemma dbl_value x a b : dbl x a -> dbl x b -> a = b.
Proof.
  intros (y & <- & _ & <-) (z & E & _ & <-). f_equal. apply B2SF_inj. symmetry. exact E.
Qed.
Lemma rnd_full : rnd (IZR (2 ^ 53 + 1)) = IZR (2 ^ 53).
Proof.
  assert (D : dbl (f64_lit 9007199254740992 0) (IZR (2 ^ 53))).
  { exists (f64 (f64_lit 9007199254740992 0) eq_refl). split; [apply toSF_f64|]. split; [reflexivity|]. unfold f64. rewrite B2R_SF2B. vm_compute. lra. }
  pose proof (dbl_add _ _ _ _ D dbl_1) as X. rewrite <- plus_IZR in X. refine (dbl_value _ _ _ (X _) _).
  - rewrite Rabs_pos_eq by (apply IZR_le; lia). apply Rle_trans with (two 54); [|apply bpow_le; lia]. change (two 54) with (IZR (2 ^ 54)). apply IZR_le. lia.
  - replace (f64_add (f64_lit 9007199254740992 0) (f64_lit 1 0)) with (f64_lit 9007199254740992 0) by (vm_compute; reflexivity). exact D.
Qed.
Lemma counts_succ x k : counts x k -> exists k', counts (f64_add x (f64_lit 1 0)) k'.
Proof.
  intros [D H]. destruct (Z.eq_dec k (2 ^ 53)) as [->|NE].
  - exists (2 ^ 53)%Z. split; [|lia]. pose proof (dbl_add x _ _ _ D dbl_1) as X. rewrite <- plus_IZR, rnd_full in X. apply X.
    rewrite Rabs_pos_eq by (apply IZR_le; lia). apply Rle_trans with (two 54); [|apply bpow_le; lia]. change (two 54) with (IZR (2 ^ 54)). apply IZR_le. lia.
  - exists (k + 1)%Z. split; [apply int_succ; [exact D|lia]|lia].
Qed.
Definition counting (h : hist spec_float) : Prop := Forall (fun x => exists k, counts x k) (hi_values h).
Lemma get_in {A} (l : list A) i x : get l i = Ok x -> In x l.
Proof. unfold get. destruct (_ || _)%bool; [discriminate|]. destruct (nth_error l (Z.to_nat i)) eqn:EN; [|discriminate]. intros X. injection X; intros <-. eapply nth_error_In; eauto. Qed.
Lemma upd_all {A} (P : A -> Prop) l : forall i x, Forall P l -> P x -> Forall P (upd l i x).
Proof. induction l as [|a l IH]; intros [|i] x HL HX; cbn [upd]; auto; inversion HL; subst; constructor; auto. Qed.
Lemma add_counting L (h h' : hist spec_float) v : @add_value _ (Num_F64 L) h v = Ok h' -> counting h -> counting h'.
Proof.
  unfold add_value. intros X HC. apply bind_ok in X. destruct X as (c0 & _ & X). apply bind_ok in X. destruct X as (hit & _ & X). destruct hit; [|injection X; intros <-; exact HC].
  apply bind_ok in X. destruct X as (i & _ & X). apply bind_ok in X. destruct X as (x & GX & X). injection X; intros <-. unfold counting in *. cbn [hi_values].
  apply upd_all; [exact HC|]. apply get_in in GX. rewrite Forall_forall in HC. destruct (HC x GX) as (k & K). exact (counts_succ x k K).
Qed.
Lemma filled_counting L (h h' : hist spec_float) : @filled _ (Num_F64 L) h h' -> counting h -> counting h'.
Proof.
  intros F HC. induction F as [|h1 h2 p F IH A]; [exact HC|]. unfold app_particle in A. destruct (_ =? 0)%Z; [discriminate|].
  repeat (destruct (type_is h1 _ _); [exact (add_counting L _ _ _ A IH)|]). discriminate.
Qed.
Lemma counts_0 : counts (f64_lit 0 0) 0.
Proof. split; [apply dbl_0|lia]. Qed.
Lemma new_counting L g nm p t ti a b n : counting (@hist_new _ (Num_F64 L) g nm p t ti a b n).
Proof. unfold counting, hist_new, initialise. cbn [hi_values]. apply Forall_forall. intros x Hx. apply repeat_spec in Hx. subst x. exists 0%Z. exact counts_0. Qed.

(** ** Sums *)
Lemma int_add x y a b : counts x a -> counts y b -> (a + b <= 2 ^ 53)%Z -> counts (f64_add x y) (a + b).
Proof.
  intros [DA HA] [DB HB] H. split; [|lia]. pose proof (dbl_add x y _ _ DA DB) as Q. rewrite <- plus_IZR in Q. rewrite rnd_id in Q by (apply int_fmt; lia).
  apply Q. rewrite Rabs_pos_eq by (apply IZR_le; lia). apply Rle_trans with (two 53); [|apply bpow_le; lia]. change (two 53) with (IZR (2 ^ 53)). apply IZR_le. lia.
Qed.
Lemma fold_counts L xs : forall ks x k, Forall2 counts xs ks -> counts x k -> (k + fold_right Z.add 0%Z ks <= 2 ^ 53)%Z ->
  counts (fold_left (@nadd _ (Num_F64 L)) xs x) (k + fold_right Z.add 0%Z ks).
Proof.
  induction xs as [|y xs IH]; intros ks x k F HX HS; inversion F; subst; cbn [fold_left fold_right] in *; [rewrite Z.add_0_r; exact HX|].
  rename y0 into a. assert (S0 : forall l, Forall2 counts xs l -> (0 <= fold_right Z.add 0%Z l)%Z).
  { clear. induction xs as [|z xs IH]; intros l X; inversion X; subst; cbn; [lia|]. destruct H1 as [_ B]. pose proof (IH _ H3). lia. }
  pose proof (S0 _ H3). rewrite Z.add_assoc in *. apply IH; [exact H3|apply int_add; auto; lia|exact HS].
Qed.
Lemma sum_permZ l m : Permutation l m -> fold_right Z.add 0%Z l = fold_right Z.add 0%Z m.
Proof. induction 1; cbn; lia. Qed.
Lemma Forall2_perm {A B} (P : A -> B -> Prop) l l' : Permutation l l' -> forall m, Forall2 P l m -> exists m', Permutation m m' /\ Forall2 P l' m'.
Proof.
  induction 1 as [|x l l' H IH|x y l|l l' l'' H1 IH1 H2 IH2]; intros m F.
  - inversion F; subst. exists []. split; constructor.
  - inversion F; subst. destruct (IH _ H4) as (m' & Q & G). exists (y :: m'). split; constructor; auto.
  - inversion F; subst. inversion H3; subst. eexists. split; [apply perm_swap|]. constructor; [|constructor]; assumption.
  - destruct (IH1 _ F) as (m1 & Q1 & G1). destruct (IH2 _ G1) as (m2 & Q2 & G2). exists m2. split; [eapply Permutation_trans; eauto|exact G2].
Qed.
Lemma nth_counts xs ks i : Forall2 counts xs ks -> counts (nth i xs (f64_lit 0 0)) (nth i ks 0%Z).
Proof. intros F. revert i. induction F as [|x k xs ks H F IH]; intros [|i]; cbn; try exact counts_0; auto. Qed.

(** ** C146 *)
(** the merged file: a bin whose counts do not exceed 2^53 together holds their exact sum, in whatever order the ranks reported *)
Theorem C146_merge : forall L pa f0 fs f h kss, @merges _ (Num_F64 L) pa f0 fs f -> In h (FileParser.in_histograms pa) ->
  Forall2 (fun f ks => Forall2 counts (stored f (values_of h)) ks) (f0 :: fs) kss ->
  exists vals, lookup (f_tree f) (values_of h) = Some (Dat [FileParser.h_bins h] vals) /\ Z.of_nat (length vals) = FileParser.h_bins h /\
    forall i, (i < length vals)%nat -> (together kss i <= 2 ^ 53)%Z -> counts (nth i vals (f64_lit 0 0)) (together kss i).
Proof.
  intros L pa f0 fs f h kss (_ & _ & HH & _) Hh FK. destruct (HH h Hh) as (_ & _ & order & vals & PO & LK & LV & N). exists vals. split; [exact LK|]. split; [exact LV|].
  intros i Hi HT. specialize (N i Hi). inversion FK as [|? k0 ? ks F0 FS]; subst. apply nth_error_nth with (d := f64_lit 0 0) in N. rewrite N.
  destruct (Forall2_perm _ _ _ (Permutation_sym PO) _ FS) as (ko & PK & FO). unfold together in *. cbn [map fold_right] in *.
  rewrite (sum_permZ _ _ (Permutation_map (fun ks => nth i ks 0%Z) PK)) in *. apply fold_counts; [|apply nth_counts; exact F0|exact HT].
  clear -FO. induction FO; cbn; constructor; auto. apply nth_counts. exact H.
Qed.
Print Assumptions C146_merge.

Section Runs.
Variable L : Libm.
Variable E : Engine spec_float.
Variable load_em : res (em_tables spec_float).
Variable load_bw : res (bw_tables spec_float).
Variable counters : nat -> Z.
Variable code : objinfo.
Variable garbage : spec_float.
Variable fuel : nat.
Variable disk : string -> IniReader.path.
Variable special : text -> spec_float.
Local Notation serial := (@program _ (Num_F64 L) E load_em load_bw counters code garbage fuel disk special).
Local Notation mpi := (@mpi_program _ (Num_F64 L) E load_em load_bw counters code garbage fuel disk special).

(** a serial run: whatever it has simulated, every bin holds a whole number from 0 to 2^53 *)
Theorem C146_serial : forall argv name pa q n g f, objinfo_inverted code ->
  check_arguments argv = Ok name -> @FileParser.file_parser _ (Num_F64 L) special (disk name) = Ok pa ->
  FileParser.in_particles pa = [q] -> FileParser.p_output q = true -> FileParser.p_number q = Z.of_nat n -> (n <= 268)%nat -> good_names pa ->
  serial argv g = Ok f ->
  forall h, In h (FileParser.in_histograms pa) -> exists ks, Forall2 counts (stored f (values_of h)) ks /\ Z.of_nat (length ks) = FileParser.h_bins h.
Proof.
  intros argv name pa q n g f HI HA HF HP HO HN HB GN X h Hh. unfold program in X. rewrite HA in X. cbn [bind] in X. rewrite HF in X. cbn [bind] in X.
  destruct (@serial_simulated _ (Num_F64 L) E load_em load_bw counters code garbage fuel pa q n g f HP HN X) as (e & SE).
  assert (FW : @few _ (Num_F64 L) n [e]).
  { split; [cbn [length]; lia|]. intros nm. cbn [flat_map]. rewrite app_nil_r. pose proof (@table_bound _ (Num_F64 L) E load_em load_bw counters fuel pa q n g e nm SE) as B. unfold default_max in B. lia. }
  destruct (@serial_run _ (Num_F64 L) E load_em load_bw counters code garbage fuel pa q n g e [e] HI HP HO HN GN SE FW (or_introl eq_refl)) as (f' & X' & SF).
  assert (f' = f) as -> by congruence. destruct SF as (_ & _ & _ & _ & SF).
  destruct SE as (w & src & g1 & g2 & _ & _ & EV). pose proof (@events_filled _ (Num_F64 L) E fuel w _ n src g1 _ (fst e) g2 (snd e) EV) as FI.
  assert (K : exists h', In h' (snd e) /\ hi_name h' = FileParser.h_name h /\ hi_n h' = FileParser.h_bins h /\ counting h' /\ Z.of_nat (length (hi_values h')) = FileParser.h_bins h).
  { destruct GN as [_ GB]. specialize (GB h Hh). clear -FI Hh GB. revert FI. generalize (snd e). generalize 0%nat. revert Hh. generalize (FileParser.in_histograms pa). intros hs.
    induction hs as [|a hs IH]; intros Hh i l FI; [contradiction|]. cbn [make_histograms] in FI. inversion FI as [|? b ? l' FA FR]; subst. destruct Hh as [<-|Hh].
    - exists b. split; [left; reflexivity|]. assert (S : hi_name b = FileParser.h_name a /\ hi_n b = FileParser.h_bins a /\ Z.of_nat (length (hi_values b)) = FileParser.h_bins a).
      { clear -FA GB. assert (N0 : hi_name (@make_histogram _ (Num_F64 L) counters i a) = FileParser.h_name a /\ hi_n (@make_histogram _ (Num_F64 L) counters i a) = FileParser.h_bins a /\ Z.of_nat (length (hi_values (@make_histogram _ (Num_F64 L) counters i a))) = FileParser.h_bins a).
        { cbn. rewrite repeat_length. repeat split. lia. }
        induction FA as [|h1 h2 p F IH A]; [exact N0|]. destruct IH as (I1 & I2 & I3). clear -A I1 I2 I3.
        assert (G : forall v h1 h2, @add_value _ (Num_F64 L) h1 v = Ok h2 -> hi_name h2 = hi_name h1 /\ hi_n h2 = hi_n h1 /\ length (hi_values h2) = length (hi_values h1)).
        { clear. intros v h1 h2 X. unfold add_value in X. apply bind_ok in X. destruct X as (c0 & _ & X). apply bind_ok in X. destruct X as (hit & _ & X). destruct hit; [|injection X; intros <-; auto].
          apply bind_ok in X. destruct X as (j & _ & X). apply bind_ok in X. destruct X as (x & _ & X). injection X; intros <-. cbn. rewrite length_upd. auto. }
        unfold app_particle in A. destruct (hi_n h1 =? 0)%Z; [discriminate|].
        repeat (destruct (type_is h1 _ _); [destruct (G _ _ _ A) as (G1 & G2 & G3); rewrite G1, G2, G3; auto|]). discriminate. }
      destruct S as (S1 & S2 & S3). repeat split; auto. eapply filled_counting; [exact FA|]. apply new_counting.
    - destruct (IH Hh _ _ FR) as (h' & I & R). exists h'. split; [right; exact I|exact R]. }
  destruct K as (h' & I & N1 & N2 & CT & LN). destruct (SF h' I) as (_ & SV). unfold stored, values_of. rewrite <- N1, SV.
  unfold counting in CT. destruct (Forall2_exists _ _ (proj1 (Forall_forall _ _) CT)) as (ks & FK). exists ks. split; [exact FK|]. apply SimFacts.Forall2_length in FK. rewrite <- LN. f_equal. solve [exact FK|symmetry; exact FK].
Qed.

(** a run with MPI: every bin holds the exact sum of the counts of the serial runs with the same random numbers, if that is not more than 2^53;
    so it does not depend on the order in which the ranks report *)
Theorem C146_mpi : forall argv name pa q n g0 gs f0 fs, objinfo_inverted code ->
  check_arguments argv = Ok name -> @FileParser.file_parser _ (Num_F64 L) special (disk name) = Ok pa ->
  FileParser.in_particles pa = [q] -> FileParser.p_output q = true -> FileParser.p_number q = Z.of_nat n -> good_names pa ->
  Forall2 (fun g f => serial argv g = Ok f) (g0 :: gs) (f0 :: fs) -> (S (length gs) * n <= 268)%nat ->
  exists w0, mpi argv g0 gs = Ok w0 /\
    forall h, In h (FileParser.in_histograms pa) ->
      exists kss, Forall2 (fun f ks => Forall2 counts (stored f (values_of h)) ks) (f0 :: fs) kss /\
      forall w s, reach w0 w -> done w s ->
        exists vals, lookup (f_tree (om_file s)) (values_of h) = Some (Dat [FileParser.h_bins h] vals) /\ Z.of_nat (length vals) = FileParser.h_bins h /\
          forall i, (i < length vals)%nat -> (together kss i <= 2 ^ 53)%Z -> counts (nth i vals (f64_lit 0 0)) (together kss i).
Proof.
  intros argv name pa q n g0 gs f0 fs HI HA HF HP HO HN GN HS HB.
  destruct (@C137_serial_runs _ (Num_F64 L) E load_em load_bw counters code garbage fuel disk special argv name pa q n g0 gs f0 fs HI HA HF HP HO HN GN HS HB) as (w0 & M & _ & RUN).
  exists w0. split; [exact M|]. intros h Hh.
  assert (KS : exists kss, Forall2 (fun f ks => Forall2 counts (stored f (values_of h)) ks) (f0 :: fs) kss).
  { apply Forall2_exists. intros f Hf. assert (PX : exists g, serial argv g = Ok f) by (clear -HS Hf; revert Hf; induction HS as [|g' f' gl fl X _ IH]; intros []; [subst; eauto|auto]).
    destruct PX as (g & X). destruct (C146_serial argv name pa q n g f HI HA HF HP HO HN ltac:(nia) GN X h Hh) as (ks & K & _). exists ks. exact K. }
  destruct KS as (kss & KS). exists kss. split; [exact KS|]. intros w s HR DS. destruct (RUN w HR) as (_ & _ & W3). exact (C146_merge L pa f0 fs _ h kss (W3 s DS) Hh KS).
Qed.
End Runs.
Print Assumptions C146_serial.
Print Assumptions C146_mpi.

(** beyond 2^53 the sum depends on the order: 2^53 + 1 + 1 is 2^53, and 1 + 1 + 2^53 is 2^53 + 2 *)
Theorem C146_order : forall L, let full := f64_lit 9007199254740992 0 in let one := f64_lit 1 0 in
  counts full (2 ^ 53) /\ counts one 1 /\
  fold_left (@nadd _ (Num_F64 L)) [one; one] full = full /\ fold_left (@nadd _ (Num_F64 L)) [one; full] one = f64_lit 9007199254740994 0 /\
  f64_lit 9007199254740994 0 <> full.
Proof.
  intros L full one. split; [|split; [split; [exact dbl_1|lia]|split; [vm_compute; reflexivity|split; [vm_compute; reflexivity|vm_compute; discriminate]]]].
  split; [|lia]. exists (f64 full eq_refl). split; [apply toSF_f64|]. split; [reflexivity|]. unfold f64. rewrite B2R_SF2B. vm_compute. lra.
Qed.
Print Assumptions C146_order.

(** three ranks with two photons each (C137_case): the first bin is exactly 6 *)
Lemma counts_2 : counts (f64_lit 2 0) 2.
Proof. split; [|lia]. exists (f64 (f64_lit 2 0) eq_refl). split; [apply toSF_f64|]. split; [reflexivity|]. unfold f64. rewrite B2R_SF2B. vm_compute. lra. Qed.
Example C146_case : exists w0, m_run ["qedcasc"; "run.ini"] tt [tt; tt] = Ok w0 /\
  forall w s, reach w0 w -> done w s ->
    exists vals, lookup (f_tree (om_file s)) ["Histograms"; "spectrum"; "BinValues"] = Some (Dat [3%Z] vals) /\ counts (nth 0 vals (f64_lit 0 0)) 6 /\ counts (nth 1 vals (f64_lit 0 0)) 0.
Proof.
  destruct m_input as (pa & q & h & F & P1 & P2 & P3 & P4 & P5 & P6). destruct m_file as (f & ER & HV).
  destruct (C146_mpi c_libm c_engine (Ok c_em) Throw (fun _ => 0%Z) ex_code (f64_lit 7 0) 10 m_disk (fun _ => f64_lit 0 0)
    ["qedcasc"; "run.ini"] "run.ini" pa q 2 tt [tt; tt] f [f; f] (proj1 C56_case) m_argument F P1 P2 P3) as (w0 & M & RUN).
  - unfold good_names. rewrite P4. split; [repeat constructor; intros []|]. intros h' [<-|[]]. rewrite P5, P6. split; [|split; [discriminate|lia]].
    intros x Hx. cbn in Hx. intuition (subst; discriminate).
  - do 3 (apply Forall2_cons; [exact ER|]). apply Forall2_nil.
  - cbn. lia.
  - exists w0. split; [exact M|]. intros w s HR DS. destruct (RUN h) as (kss & FK & R); [rewrite P4; left; reflexivity|].
    assert (U : forall ks, Forall2 counts (stored f (values_of h)) ks -> nth 0 ks 0%Z = 2%Z /\ nth 1 ks 0%Z = 0%Z).
    { intros ks K. unfold values_of in K. rewrite P5, HV in K. inversion K as [|? a ? r A1 A2]; subst. inversion A2 as [|? b ? r' B1 B2]; subst. cbn [nth].
      split; apply eq_IZR; [apply (dbl_value _ _ _ (proj1 A1) (proj1 counts_2))|apply (dbl_value _ _ _ (proj1 B1) (proj1 counts_0))]. }
    inversion FK as [|? k0 ? r K0 FK']; subst. inversion FK' as [|? k1 ? r1 K1 FK1]; subst. inversion FK1 as [|? k2 ? r2 K2 FK2]; subst. inversion FK2; subst.
    destruct (U _ K0) as [a0 b0]. destruct (U _ K1) as [a1 b1]. destruct (U _ K2) as [a2 b2].
    destruct (R w s HR DS) as (vals & LK & LV & N). unfold values_of in LK. rewrite P5, P6 in LK. rewrite P6 in LV. exists vals. split; [exact LK|].
    pose proof (N 0%nat ltac:(lia)) as X0. pose proof (N 1%nat ltac:(lia)) as X1. unfold together in X0, X1. cbn [map fold_right] in X0, X1. rewrite a0, a1, a2 in X0. rewrite b0, b1, b2 in X1.
    split; [apply X0|apply X1]; lia.
Qed.
