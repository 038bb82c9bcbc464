(** * Properties C61, C62, C85: output with MPI *)
From Coq Require Import String Ascii ZArith Reals Lra List Bool Lia Arith Permutation.
From Verif Require Import Num RNum Outcome OutcomeFacts Vec SpecVec Units Particle ParticleList Fields Sim SimFacts Histogram HistFacts Hdf5 Output OutFacts OutFile
  Mpi MpiFacts MpiGather MpiHist PropsOut.
From Verif Require PropsHist SpecTable.
Import ListNotations.

(** ** Specification *)
Section Spec.
Context {T : Type} `{Num T}.
(** what a rank simulates: [rk_n] events with the lists [rk_prim j] at the start and [rk_fin j] at the end, the calls
    made for them in some order, and its filled histograms *)
Record rank := mkRank { rk_n : nat; rk_prim : nat -> plist (particle T); rk_fin : nat -> plist (particle T); rk_first : nat -> particle T;
  rk_calls : list (op T); rk_hists : list (hist T) }.
Definition rank_ok (r : rank) : Prop :=
  event_calls (rk_n r) (rk_prim r) (rk_fin r) (rk_calls r) /\
  (forall j, (j < rk_n r)%nat -> pl_get (rk_prim r j) 0 = Ok (rk_first r j)) /\
  (forall j, (j < rk_n r)%nat -> (pl_n (rk_fin r j) < 2 ^ 29)%Z).
(** the rows of the four tables over all ranks, in rank order *)
Definition all_primary (rs : list rank) : list (list T) := flat_map (fun r => map (fun j => spec_row j (rk_first r j)) (seq 0 (rk_n r))) rs.
Definition all_final (name : string) (rs : list rank) : list (list T) := flat_map (fun r => spec_table name (rk_n r) (rk_fin r)) rs.
(** a histogram of the input file, and a histogram of a rank: made from it and filled *)
Record hconf := mkHC { hc_name : string; hc_particle : string; hc_type : string; hc_time : T; hc_min : T; hc_max : T; hc_bins : Z }.
Inductive filled (h : hist T) : hist T -> Prop :=
| fi_new : filled h h
| fi_app h1 h2 p : filled h h1 -> app_particle h1 p = Ok h2 -> filled h h2.
Definition hist_of (c : hconf) (h : hist T) : Prop :=
  exists g, filled (hist_new g (hc_name c) (hc_particle c) (hc_type c) (hc_time c) (hc_min c) (hc_max c) (hc_bins c)) h.
Definition hconf_ok (c : hconf) : Prop := no_slash (hc_name c) /\ hc_name c <> ""%string /\ (0 <= hc_bins c)%Z.
(** the centres of the bins of the input file *)
Definition axis (c : hconf) : list T :=
  map (fun i => nadd (hc_min c) (nmul (nZ (Z.of_nat i)) (ndiv (nsub (hc_max c) (hc_min c)) (nsub (nZ (hc_bins c)) n1)))) (seq 0 (Z.to_nat (hc_bins c))).
Definition bin (k i : nat) (r : rank) : T := nth i (nth k (map hi_values (rk_hists r)) []) n0.
End Spec.
Arguments rank : clear implicits.
Arguments hconf : clear implicits.

Lemma add_value_axes {T} `{Num T} (h h' : hist T) v : add_value h v = Ok h' ->
  hi_name h' = hi_name h /\ hi_n h' = hi_n h /\ hi_centres h' = hi_centres h /\ length (hi_values h') = length (hi_values h).
Proof.
  unfold add_value. cbv zeta. intros HX. apply bind_ok in HX. destruct HX as (c0 & _ & HX). apply bind_ok in HX. destruct HX as (hit & _ & HX).
  destruct hit.
  - apply bind_ok in HX. destruct HX as (i & _ & HX). apply bind_ok in HX. destruct HX as (x & _ & HX). injection HX; intros <-. cbn. rewrite length_upd. auto.
  - injection HX; intros <-. auto.
Qed.
Lemma filled_axes {T} `{Num T} (h h' : hist T) : filled h h' ->
  hi_name h' = hi_name h /\ hi_n h' = hi_n h /\ hi_centres h' = hi_centres h /\ length (hi_values h') = length (hi_values h).
Proof.
  induction 1 as [|h1 h2 p HF (A & B & C & D) HA]; [auto|].
  assert (HX : exists v, add_value h1 v = Ok h2).
  { unfold app_particle in HA. destruct (hi_n h1 =? 0)%Z; [discriminate|].
    repeat match type of HA with (if ?b then _ else _) = _ => destruct b; [eexists; exact HA|] end. discriminate. }
  destruct HX as (v & HX). destruct (add_value_axes _ _ _ HX) as (E & F & G & I). rewrite E, F, G, I. auto.
Qed.
Lemma hist_of_axes {T} `{Num T} (c : hconf T) (h : hist T) : hist_of c h -> (0 <= hc_bins c)%Z ->
  hi_name h = hc_name c /\ hi_n h = hc_bins c /\ hi_centres h = axis c /\ Z.of_nat (length (hi_values h)) = hc_bins c /\ Z.of_nat (length (axis c)) = hc_bins c.
Proof.
  intros (g & HF) HB. apply filled_axes in HF. cbn [hist_new initialise hi_name hi_n hi_centres hi_values] in HF. rewrite repeat_length in HF. destruct HF as (A & B & C & D).
  split; [auto|]. split; [auto|]. split; [exact C|]. split; [rewrite D; lia|]. unfold axis. rewrite map_length, seq_length. lia.
Qed.

(** ** The whole program *)
Section Run.
Context {T : Type} {NT : Num T}.
Variable code : objinfo.
Variable fld : field T.
Definition data_of (r : rank T) : rdata (T := T) :=
  mkRD (map (fun j => row (Z.of_nat j) (rk_first r j)) (seq 0 (rk_n r)))
       (map (fun j => rows_of "Electron" (Z.of_nat j) (pl_items (rk_fin r j))) (seq 0 (rk_n r)))
       (map (fun j => rows_of "Positron" (Z.of_nat j) (pl_items (rk_fin r j))) (seq 0 (rk_n r)))
       (map (fun j => rows_of "Photon" (Z.of_nat j) (pl_items (rk_fin r j))) (seq 0 (rk_n r))).
Lemma t_pr_of r : t_pr (data_of r) = map (fun j => spec_row j (rk_first r j)) (seq 0 (rk_n r)).
Proof. reflexivity. Qed.
Lemma t_fin_of name r : concat (map (fun j => rows_of name (Z.of_nat j) (pl_items (rk_fin r j))) (seq 0 (rk_n r))) = spec_table name (rk_n r) (rk_fin r).
Proof. rewrite spec_table_eq. unfold all_rows. rewrite <- flat_map_concat_map. reflexivity. Qed.
Definition source_of (r : rank T) : list (source_run T) := [mkSR true (Z.of_nat (rk_n r)) (rk_calls r)].

Lemma rank_runs garbage (s : om T) r : rank_ok r -> exists s', exec_all code garbage fld s (init_calls (mkSR true (Z.of_nat (rk_n r)) (rk_calls r))) = Ok s' /\
  has s' (data_of r) /\ om_file s' = om_file s /\ om_source s' = om_source s.
Proof.
  intros ([HC1 HC2] & HP & HF). unfold init_calls. cbn [sr_output sr_number sr_calls app exec_all exec bind].
  destruct (run_calls code garbage fld (rk_n r) (rk_prim r) (rk_fin r) (rk_first r) (rk_calls r) HP HF HC2 (fun _ => None) (fun _ => None) (init_source s (Z.of_nat (rk_n r))) (init_slots s (rk_n r))) as
    (s1 & P' & F' & E1 & SL & _ & _ & _ & _ & AP & AF & R1 & R2 & R3 & R4 & R5 & R6); try (intros; discriminate).
  assert (HS : stored (rk_n r) (rk_first r) (rk_fin r) s1) by (eapply slots_stored; [exact SL| |]; intros j Hj; [apply AP|apply AF]; auto; apply HC1; auto).
  exists s1. split; [exact E1|]. split; [|auto]. destruct HS as [A B]. split; [exact A|]. split.
  - intros q Hq. cbn [data_of d_prim] in Hq. apply in_map_iff in Hq. destruct Hq as (j & <- & _). reflexivity.
  - split; [apply (B "Electron"%string); cbn; auto|]. split; [apply (B "Positron"%string); cbn; auto|apply (B "Photon"%string); cbn; auto].
Qed.

Definition small (rs : list (rank T)) : Prop :=
  forall t, In t [all_primary rs; all_final "Electron" rs; all_final "Positron" rs; all_final "Photon" rs] -> (Z.of_nat (length t) < 2 ^ 28)%Z.
Definition acts_of (r : rank T) : list (act T) := st0 (data_of r, flat_map slave_hist (rk_hists r)).
Lemma slave_runs garbage (s : om T) r : rank_ok r ->
  (forall t, In t [t_pr (data_of r); t_el (data_of r); t_po (data_of r); t_ph (data_of r)] -> (size t < 2 ^ 31)%Z) ->
  slave_main code garbage fld s (source_of r) (rk_hists r) = Ok (acts_of r).
Proof.
  intros HR HS. destruct (rank_runs garbage s r HR) as (s' & E & HH & _). unfold slave_main, source_of. cbn [slave_sources]. rewrite E. cbn [bind sr_output].
  rewrite (slave_source_eq garbage s' (data_of r) HH HS). cbn [bind]. rewrite app_nil_r. reflexivity.
Qed.

Definition tables_done (rs : list (rank T)) (s : om T) : Prop :=
  let at_ x := lookup (f_tree (om_file s)) ["Particles"; "ParticleSource"; x]%string in
  at_ "Primary"%string = Some (Dat [Z.of_nat (length (all_primary rs)); 8%Z] (concat (all_primary rs))) /\
  at_ "Electrons"%string = spec_node (all_final "Electron" rs) /\
  at_ "Positrons"%string = spec_node (all_final "Positron" rs) /\
  at_ "Photons"%string = spec_node (all_final "Photon" rs).
Definition no_tracks (s : om T) : Prop := forall q, lookup (f_tree (om_file s)) ("Particles" :: "ParticleTrack" :: q)%string = None.
Definition hists_done (cs : list (hconf T)) (r0 : rank T) (rs : list (rank T)) (s : om T) : Prop :=
  forall k c, nth_error cs k = Some c ->
    lookup (f_tree (om_file s)) ["Histograms"; hc_name c; "BinCentres"]%string = Some (Dat [hc_bins c] (axis c)) /\
    exists order vals, Permutation order rs /\ lookup (f_tree (om_file s)) ["Histograms"; hc_name c; "BinValues"]%string = Some (Dat [hc_bins c] vals) /\
      Z.of_nat (length vals) = hc_bins c /\
      forall i, (i < length vals)%nat -> nth_error vals i = Some (fold_left nadd (map (bin k i) order) (bin k i r0)).

Lemma add_bins_nth (b : list T) : forall a i, length a = length b -> (i < length a)%nat -> nth i (add_bins a b) n0 = nadd (nth i a n0) (nth i b n0).
Proof. induction b as [|y b IH]; intros [|x a] [|i] HL HI; cbn [add_bins length nth] in *; try lia; auto. apply IH; lia. Qed.
Lemma fold_bins_nth vs : forall (a : list T) i, (forall v, In v vs -> length v = length a) -> (i < length a)%nat ->
  nth i (fold_left add_bins vs a) n0 = fold_left nadd (map (fun v => nth i v n0) vs) (nth i a n0).
Proof.
  induction vs as [|v vs IH]; intros a i HL HI; cbn [fold_left map]; [auto|]. rewrite IH.
  - rewrite add_bins_nth; auto. rewrite (HL v); [auto|left; auto].
  - intros w Hw. rewrite add_bins_length. apply HL. right; auto.
  - rewrite add_bins_length. auto.
Qed.

Lemma mpi_run garbage (u : option (units T)) (r0 : rank T) (rs : list (rank T)) (gs : list T) (sos : list (om T)) (cs : list (hconf T)) :
  objinfo_inverted code -> (forall r, In r (r0 :: rs) -> rank_ok r) -> small (r0 :: rs) ->
  NoDup (map hc_name cs) -> (forall c, In c cs -> hconf_ok c) -> (forall r, In r (r0 :: rs) -> Forall2 hist_of cs (rk_hists r)) ->
  length gs = length rs -> length sos = length rs ->
  exists s0 acts, om_new code u = Ok s0 /\ length acts = length rs /\
    (forall i r g so, nth_error rs i = Some r -> nth_error gs i = Some g -> nth_error sos i = Some so ->
       exists a, nth_error acts i = Some a /\ slave_main code g fld so (source_of r) (rk_hists r) = Ok a) /\
    let w0 := start (master_main code garbage fld (length rs) s0 (source_of r0) (rk_hists r0)) acts in
    Acc (fun w' w => step w w') w0 /\
    forall w, reach w0 w -> w_master w <> Fail /\ ((exists s, done w s) \/ exists w', step w w') /\
      (forall s, w_master w = Ret s -> tables_done (r0 :: rs) s /\ hists_done cs r0 rs s /\ no_tracks s).
Proof.
  intros HI HR HS HND HC HH LG LS.
  rewrite (om_new_inv code u HI). set (s0 := mkOM _ _ _ _ _ _ _ _ _ _). exists s0, (map acts_of rs).
  assert (EQ : forall f name, (f = t_pr /\ name = None) \/ (f = t_el /\ name = Some "Electron"%string) \/ (f = t_po /\ name = Some "Positron"%string) \/ (f = t_ph /\ name = Some "Photon"%string) ->
     forall q, flat_map (fun r => f (data_of r)) q = match name with None => all_primary q | Some x => all_final x q end).
  { intros f name [[-> ->] | [[-> ->] | [[-> ->] | [-> ->]]]] q; unfold all_primary, all_final; apply flat_map_ext; intros r; [apply t_pr_of| | |]; apply t_fin_of. }
  assert (SZ : forall f, In f [t_pr; t_el; t_po; t_ph] -> (size (flat_map (fun r => f (data_of r)) (r0 :: rs)) < 2 ^ 31)%Z).
  { intros f Hf. unfold size. assert (HL : (Z.of_nat (length (flat_map (fun r => f (data_of r)) (r0 :: rs))) < 2 ^ 28)%Z); [|lia].
    destruct Hf as [<-|[<-|[<-|[<-|[]]]]].
    - rewrite (EQ t_pr None) by auto. apply HS. cbn; auto.
    - rewrite (EQ t_el (Some "Electron"%string)) by auto. apply HS. cbn; auto.
    - rewrite (EQ t_po (Some "Positron"%string)) by auto. apply HS. cbn; auto.
    - rewrite (EQ t_ph (Some "Photon"%string)) by auto 6. apply HS. cbn; auto 6. }
  split; [auto|]. split; [apply map_length|]. split.
  { intros i r g so Er _ _. exists (acts_of r). split; [rewrite nth_error_map, Er; reflexivity|]. apply slave_runs; [apply HR; right; eapply nth_error_In; eauto|].
    intros t Ht. assert (HF : exists f, In f [t_pr; t_el; t_po; t_ph] /\ t = f (data_of r)).
    { destruct Ht as [<-|[<-|[<-|[<-|[]]]]]; [exists t_pr|exists t_el|exists t_po|exists t_ph]; cbn; auto 6. }
    destruct HF as (f & Hf & ->). specialize (SZ f Hf). apply nth_error_In in Er. apply in_split in Er. destruct Er as (a & b & ->). cbn [flat_map] in SZ.
    rewrite flat_map_app in SZ. cbn [flat_map] in SZ. rewrite !size_app in SZ. pose proof (size_pos (f (data_of r0))). pose proof (size_pos (f (data_of r))).
    pose proof (size_pos (flat_map (fun r => f (data_of r)) a)). pose proof (size_pos (flat_map (fun r => f (data_of r)) b)). lia. }
  cbv zeta. set (zs := map (fun r => (data_of r, flat_map slave_hist (rk_hists r))) rs).
  assert (EA : map acts_of rs = map st0 zs) by (unfold zs; rewrite map_map; reflexivity).
  assert (TZ : forall f, tot f zs = flat_map (fun r => f (data_of r)) rs).
  { intros f. unfold tot, zs. rewrite !flat_map_concat_map, map_map. reflexivity. }
  assert (WP : wp (master_main code garbage fld (length rs) s0 (source_of r0) (rk_hists r0)) (map acts_of rs) (nothing_left (fun s => tables_done (r0 :: rs) s /\ hists_done cs r0 rs s /\ no_tracks s))).
  2:{ destruct (wp_sound _ _ _ WP) as [A B]. split; [exact A|]. intros w HW. destruct (B w HW) as (B1 & B2 & B3). split; [auto|]. split; [|auto]. destruct B2 as [(s & B2 & _)|B2]; eauto. }
  rewrite EA. unfold master_main. apply wp_bind. unfold source_of. cbn [master_sources].
  destruct (rank_runs garbage s0 r0 (HR r0 (or_introl eq_refl))) as (s1 & E1 & H1 & F1 & B1).
  apply wp_bind. eapply local_wp; [exact E1|]. cbn [sr_output]. apply wp_bind.
  replace (length rs) with (length zs) at 1 by (unfold zs; apply map_length).
  apply (gather_wp code garbage s1 (data_of r0) zs); auto.
  { intros x Hx. unfold zs in Hx. apply in_map_iff in Hx. destruct Hx as (r & <- & Hr). cbn [fst].
    destruct (rank_runs garbage s0 r (HR r (or_intror Hr))) as (s' & _ & Hh & _). eapply has_good; eauto. }
  { rewrite F1. discriminate. } { rewrite F1. reflexivity. } { intros q. rewrite F1. reflexivity. }
  { intros f Hf. unfold gathered. rewrite TZ. apply (SZ f Hf). }
  set (s2 := gathered_file (data_of r0) zs s1). cbn [wp master_hists].
  assert (G : forall f name, (f = t_pr /\ name = None) \/ (f = t_el /\ name = Some "Electron"%string) \/ (f = t_po /\ name = Some "Positron"%string) \/ (f = t_ph /\ name = Some "Photon"%string) ->
     gathered f (data_of r0) zs = match name with None => all_primary (r0 :: rs) | Some x => all_final x (r0 :: rs) end).
  { intros f name HE. unfold gathered. rewrite TZ. apply (EQ f name HE (r0 :: rs)). }
  assert (TR : tables_done (r0 :: rs) s2 /\ no_tracks s2 /\ lookup (f_tree (om_file s2)) ["Histograms"%string] = Some Grp /\ forall x q, lookup (f_tree (om_file s2)) ("Histograms"%string :: x :: q) = None).
  { unfold s2, gathered_file. cbn [with_file om_file f_tree]. rewrite (G t_pr None), (G t_el (Some "Electron"%string)), (G t_po (Some "Positron"%string)), (G t_ph (Some "Photon"%string)) by auto 6. rewrite F1. cbn [s0 om_file f_tree fresh_tree].
    unfold tables_done, no_tracks, spec_node, table_entry. cbn [om_file with_file f_tree].
    destruct (all_final "Photon" (r0 :: rs)), (all_final "Positron" (r0 :: rs)), (all_final "Electron" (r0 :: rs)); (split; [repeat (split; [reflexivity|]); reflexivity|]; split; [intros q; reflexivity|]; split; [reflexivity|]; intros x q; reflexivity). }
  destruct TR as (TR & TK & TH & TN).
  replace (map st3 zs) with (map (fun x => flat_map slave_hist (fst x) ++ snd x) (map (fun r => (rk_hists r, @nil (act T))) rs)).
  2:{ unfold zs. rewrite !map_map. apply map_ext. intros r. cbn [fst snd]. rewrite app_nil_r. reflexivity. }
  replace (length rs) with (length (map (fun r => (rk_hists r, @nil (act T))) rs)) by apply map_length.
  assert (CO : forall r, In r (r0 :: rs) -> forall k c, nth_error cs k = Some c -> exists h, nth_error (rk_hists r) k = Some h /\ hist_of c h).
  { intros r Hr. specialize (HH r Hr). clear -HH. induction HH as [|c h cs hs HX HF IH]; intros [|k] c' HK; cbn [nth_error] in *; try discriminate; [|apply IH; auto]. injection HK; intros <-. eauto. }
  assert (CB : forall r, In r (r0 :: rs) -> forall k h, nth_error (rk_hists r) k = Some h -> exists c, nth_error cs k = Some c /\ hist_of c h).
  { intros r Hr. specialize (HH r Hr). clear -HH. induction HH as [|c h cs hs HX HF IH]; intros [|k] c' HK; cbn [nth_error] in *; try discriminate; [|apply IH; auto]. injection HK; intros <-. eauto. }
  assert (BP : forall c, In c cs -> (0 <= hc_bins c)%Z) by (intros c Hc; destruct (HC c Hc) as (_ & _ & A); exact A).
  assert (NM : map hi_name (rk_hists r0) = map hc_name cs).
  { specialize (HH r0 (or_introl eq_refl)). clear -HH BP. induction HH as [|c h cs hs HX HF IH]; cbn [map]; [auto|]. rewrite IH by (intros; apply BP; right; auto).
    destruct (hist_of_axes c h HX (BP c (or_introl eq_refl))) as (-> & _). auto. }
  apply master_hists_wp; auto.
  { rewrite NM. auto. }
  { intros h Hh. apply In_nth_error in Hh. destruct Hh as (k & Hk). destruct (CB r0 (or_introl eq_refl) k h Hk) as (c & Hc & HX). apply nth_error_In in Hc.
    destruct (hist_of_axes c h HX (BP c Hc)) as (A & B & C & D & E). destruct (HC c Hc) as (N1 & N2 & _). unfold hist_ok. rewrite A, B, C. split; [auto|]. split; [auto|]. split; lia. }
  { intros x Hx. apply in_map_iff in Hx. destruct Hx as (r & <- & Hr). cbn [fst].
    assert (A : Forall2 hist_of cs (rk_hists r0)) by (apply HH; left; auto). assert (B : Forall2 hist_of cs (rk_hists r)) by (apply HH; right; auto).
    clear -A B BP. revert B. generalize (rk_hists r). induction A as [|c h cs hs HX HF IH]; intros l B; inversion B as [|? h' ? l' HY HG]; subst; constructor; [|apply IH; auto; intros; apply BP; right; auto].
    destruct (hist_of_axes c h HX (BP c (or_introl eq_refl))) as (_ & B1 & _). destruct (hist_of_axes c h' HY (BP c (or_introl eq_refl))) as (_ & B2 & _ & B3 & _). unfold same_shape. split; lia. }
  { discriminate. }
  intros s' S0 S1 S2 S3. unfold nothing_left. split; [|apply Forall_forall; intros x Hx; rewrite map_map in Hx; apply in_map_iff in Hx; destruct Hx as (r & <- & _); reflexivity].
  split; [|split; [|intros q; rewrite S1 by discriminate; apply TK]].
  - unfold tables_done in *. cbv beta zeta in *. rewrite !S1 by discriminate. exact TR.
  - intros k c Hc. destruct (CO r0 (or_introl eq_refl) k c Hc) as (h & Hh & HX). pose proof (nth_error_In _ _ Hc) as Ic.
    destruct (hist_of_axes c h HX (BP c Ic)) as (A & B & C & D & E). destruct (S3 k h Hh) as (vs & P1 & P2 & P3).
    rewrite A, B in P2, P3. rewrite C in P2. split; [exact P2|].
    rewrite map_map in P1. cbn [fst] in P1.
    apply Permutation_map_inv in P1. destruct P1 as (order & EV & PO). exists order. eexists. split; [symmetry; exact PO|]. split; [exact P3|].
    assert (LV : forall r, In r order -> length (hi_values (nth k (rk_hists r) h)) = length (hi_values h) /\ forall i, bin k i r = nth i (hi_values (nth k (rk_hists r) h)) n0).
    { intros r Hr. apply (Permutation_in r (Permutation_sym PO)) in Hr. destruct (CO r (or_intror Hr) k c Hc) as (h' & Hh' & HX'). destruct (hist_of_axes c h' HX' (BP c Ic)) as (_ & _ & _ & D' & _).
      rewrite (nth_error_nth _ _ _ Hh'). split; [lia|]. intros i. unfold bin. f_equal. apply nth_error_nth. rewrite nth_error_map, Hh'. reflexivity. }
    rewrite fold_add_length. split; [lia|]. intros i Hi. rewrite (nth_error_nth' _ n0) by (rewrite fold_add_length; auto). f_equal. rewrite fold_bins_nth.
    + rewrite EV, map_map. replace (nth i (hi_values h) n0) with (bin k i r0) by (unfold bin; f_equal; apply nth_error_nth; rewrite nth_error_map, Hh; reflexivity).
      f_equal. apply map_ext_in. intros r Hr. symmetry. apply LV. auto.
    + intros v Hv. rewrite EV in Hv. apply in_map_iff in Hv. destruct Hv as (r & <- & Hr). apply LV. auto.
    + auto.
Qed.
End Run.

(** ** C61 *)
(** [gs] and [sos]: what the fresh memory and the output manager of each rank contain before; whatever they are, whatever
    the library buffers and in whatever order things happen: no call fails, somebody can always proceed until all have
    returned with no message left, no run is infinite, and then the file holds the rows of rank 0, 1, 2, ... *)
Theorem C61_gather : forall (T : Type) (NT : Num T) (code : objinfo) (fld : field T) (garbage : T) (u : option (units T))
    (r0 : rank T) (rs : list (rank T)) (gs : list T) (sos : list (om T)) (cs : list (hconf T)),
  objinfo_inverted code -> (forall r, In r (r0 :: rs) -> rank_ok r) -> small (r0 :: rs) ->
  NoDup (map hc_name cs) -> (forall c, In c cs -> hconf_ok c) -> (forall r, In r (r0 :: rs) -> Forall2 hist_of cs (rk_hists r)) ->
  length gs = length rs -> length sos = length rs ->
  exists s0 acts, om_new code u = Ok s0 /\ length acts = length rs /\
    (forall i r g so, nth_error rs i = Some r -> nth_error gs i = Some g -> nth_error sos i = Some so ->
       exists a, nth_error acts i = Some a /\ slave_main code g fld so [mkSR true (Z.of_nat (rk_n r)) (rk_calls r)] (rk_hists r) = Ok a) /\
    let w0 := start (master_main code garbage fld (length rs) s0 [mkSR true (Z.of_nat (rk_n r0)) (rk_calls r0)] (rk_hists r0)) acts in
    Acc (fun w' w => step w w') w0 /\
    forall w, reach w0 w -> w_master w <> Fail /\ ((exists s, done w s) \/ exists w', step w w') /\
      (forall s, done w s ->
         let at_ x := lookup (f_tree (om_file s)) ["Particles"; "ParticleSource"; x]%string in
         at_ "Primary"%string = Some (Dat [Z.of_nat (length (all_primary (r0 :: rs))); 8%Z] (concat (all_primary (r0 :: rs)))) /\
         at_ "Electrons"%string = spec_node (all_final "Electron" (r0 :: rs)) /\
         at_ "Positrons"%string = spec_node (all_final "Positron" (r0 :: rs)) /\
         at_ "Photons"%string = spec_node (all_final "Photon" (r0 :: rs))).
Proof.
  intros T NT code fld garbage u r0 rs gs sos cs H1 H2 H3 H4 H5 H6 H7 H8.
  destruct (mpi_run code fld garbage u r0 rs gs sos cs H1 H2 H3 H4 H5 H6 H7 H8) as (s0 & acts & A & B & C & D & E).
  exists s0, acts. split; [auto|]. split; [auto|]. split; [auto|]. cbv zeta in *. split; [auto|]. intros w HW. destruct (E w HW) as (E1 & E2 & E3).
  split; [auto|]. split; [auto|]. intros s [HS _]. apply E3. auto.
Qed.
Print Assumptions C61_gather.

(** ** C62 *)
Lemma nth_error_same {X} (l : list X) : forall l', (forall i, nth_error l i = nth_error l' i) -> l = l'.
Proof.
  induction l as [|x l IH]; intros [|y l'] HX; [auto|specialize (HX 0%nat); discriminate|specialize (HX 0%nat); discriminate|].
  pose proof (HX 0%nat) as H0. injection H0; intros <-. f_equal. apply IH. intros i. apply (HX (S i)).
Qed.
(** every arithmetic: the bins of the k-th histogram of the file are those of the master plus those of the k-th histograms of
    the other ranks, added one after the other in some order (that of arrival) *)
Theorem C62_some_order : forall (T : Type) (NT : Num T) (code : objinfo) (fld : field T) (garbage : T) (u : option (units T))
    (r0 : rank T) (rs : list (rank T)) (cs : list (hconf T)),
  objinfo_inverted code -> (forall r, In r (r0 :: rs) -> rank_ok r) -> small (r0 :: rs) ->
  NoDup (map hc_name cs) -> (forall c, In c cs -> hconf_ok c) -> (forall r, In r (r0 :: rs) -> Forall2 hist_of cs (rk_hists r)) ->
  forall s0 so acts, om_new code u = Ok s0 ->
  Forall2 (fun r a => exists g, slave_main code g fld so [mkSR true (Z.of_nat (rk_n r)) (rk_calls r)] (rk_hists r) = Ok a) rs acts ->
  forall w s, reach (start (master_main code garbage fld (length rs) s0 [mkSR true (Z.of_nat (rk_n r0)) (rk_calls r0)] (rk_hists r0)) acts) w -> done w s ->
  forall k c, nth_error cs k = Some c ->
    lookup (f_tree (om_file s)) ["Histograms"; hc_name c; "BinCentres"]%string = Some (Dat [hc_bins c] (axis c)) /\
    exists order vals, Permutation order rs /\ lookup (f_tree (om_file s)) ["Histograms"; hc_name c; "BinValues"]%string = Some (Dat [hc_bins c] vals) /\
      Z.of_nat (length vals) = hc_bins c /\
      forall i, (i < length vals)%nat -> nth_error vals i = Some (fold_left nadd (map (bin k i) order) (bin k i r0)).
Proof.
  intros T NT code fld garbage u r0 rs cs H1 H2 H3 H4 H5 H6 s0 so acts HN HA w s HW [HD _].
  assert (HG : exists gs, length gs = length rs /\ forall i r g a, nth_error rs i = Some r -> nth_error gs i = Some g -> nth_error acts i = Some a ->
     slave_main code g fld so [mkSR true (Z.of_nat (rk_n r)) (rk_calls r)] (rk_hists r) = Ok a).
  { clear -HA. induction HA as [|r a rs acts (g & HX) HF (gs & L & G)].
    - exists []. split; [auto|]. intros [|i]; discriminate.
    - exists (g :: gs). cbn [length]. split; [auto|]. intros [|i] r' g' a' A B C; cbn [nth_error] in *; [|eauto]. injection A; intros <-. injection B; intros <-. injection C; intros <-. auto. }
  destruct HG as (gs & LG & HG). assert (LA : length rs = length acts) by (clear -HA; induction HA; cbn [length]; auto).
  destruct (mpi_run code fld garbage u r0 rs gs (repeat so (length rs)) cs H1 H2 H3 H4 H5 H6 LG (repeat_length _ _)) as (s0' & acts' & A & B & C & D & E).
  rewrite HN in A. injection A; intros <-.
  assert (EA : acts' = acts).
  { apply nth_error_same. intros i. destruct (Nat.lt_ge_cases i (length rs)) as [LI|GI].
    - destruct (nth_error rs i) as [r|] eqn:ER; [|apply nth_error_None in ER; lia]. destruct (nth_error gs i) as [g|] eqn:EG; [|apply nth_error_None in EG; lia].
      destruct (C i r g so ER EG) as (a & EN & ES); [apply nth_error_repeat; auto|].
      destruct (nth_error acts i) as [a'|] eqn:EA; [|apply nth_error_None in EA; lia].
      pose proof (HG i r g a' ER EG EA) as ES'. unfold source_of in ES. rewrite ES in ES'. injection ES'; intros <-. auto.
    - assert (nth_error acts' i = None) as -> by (apply nth_error_None; lia). symmetry. apply nth_error_None. lia. }
  subst acts'. destruct (E w HW) as (_ & _ & E3). destruct (E3 s HD) as (_ & HH & _). exact HH.
Qed.
Print Assumptions C62_some_order.

(** exact arithmetic: every schedule gives the sum over all ranks *)
Lemma fold_plus (l : list R) : forall a, fold_left Rplus l a = (a + fold_right Rplus 0 l)%R.
Proof. induction l as [|x l IH]; intros a; cbn [fold_left fold_right]; [lra|]. rewrite IH. lra. Qed.
Lemma sum_perm (l l' : list R) : Permutation l l' -> fold_right Rplus 0%R l = fold_right Rplus 0%R l'.
Proof. induction 1; cbn [fold_right]; lra. Qed.
Theorem C62_sum : forall (code : objinfo) (fld : field R) (garbage : R) (u : option (units R)) (r0 : rank R) (rs : list (rank R)) (cs : list (hconf R)),
  objinfo_inverted code -> (forall r, In r (r0 :: rs) -> rank_ok r) -> small (r0 :: rs) ->
  NoDup (map hc_name cs) -> (forall c, In c cs -> hconf_ok c) -> (forall r, In r (r0 :: rs) -> Forall2 hist_of cs (rk_hists r)) ->
  forall s0 so acts, om_new code u = Ok s0 ->
  Forall2 (fun r a => exists g, slave_main code g fld so [mkSR true (Z.of_nat (rk_n r)) (rk_calls r)] (rk_hists r) = Ok a) rs acts ->
  forall w s, reach (start (master_main code garbage fld (length rs) s0 [mkSR true (Z.of_nat (rk_n r0)) (rk_calls r0)] (rk_hists r0)) acts) w -> done w s ->
  forall k c, nth_error cs k = Some c ->
    lookup (f_tree (om_file s)) ["Histograms"; hc_name c; "BinValues"]%string =
      Some (Dat [hc_bins c] (map (fun i => fold_right Rplus 0%R (map (bin k i) (r0 :: rs))) (seq 0 (Z.to_nat (hc_bins c))))).
Proof.
  intros code fld garbage u r0 rs cs H1 H2 H3 H4 H5 H6 s0 so acts HN HA w s HW HD k c HC.
  destruct (C62_some_order R Num_R code fld garbage u r0 rs cs H1 H2 H3 H4 H5 H6 s0 so acts HN HA w s HW HD k c HC) as (_ & order & vals & PO & -> & LV & NV).
  do 2 f_equal. apply nth_error_same. intros i. destruct (Nat.lt_ge_cases i (length vals)) as [LI|GI].
  - rewrite NV by auto. rewrite nth_error_map, (nth_error_nth' _ 0%nat), seq_nth by (rewrite ?seq_length; lia). cbn [option_map Nat.add map fold_right]. f_equal.
    change (@nadd R Num_R) with Rplus. rewrite fold_plus. f_equal. apply sum_perm. apply Permutation_map. exact PO.
  - assert (nth_error vals i = None) as -> by (apply nth_error_None; lia). symmetry. apply nth_error_None. rewrite map_length, seq_length. lia.
Qed.
Print Assumptions C62_sum.

(** ** C85 *)
Lemma primary_number {T} `{NT : Num T} (n : nat) (rs : list (rank T)) (i j : nat) (r : rank T) :
  (forall r, In r rs -> rk_n r = n) -> nth_error rs i = Some r -> (j < n)%nat ->
  nth_error (all_primary rs) (i * n + j) = Some (spec_row j (rk_first r j)) /\
  nth_error (concat (all_primary rs)) ((i * n + j) * 8) = Some (nZ (Z.of_nat j)).
Proof.
  intros HN HI HJ.
  assert (R8 : forall q, In q (all_primary rs) -> length q = 8%nat).
  { intros q Hq. unfold all_primary in Hq. apply in_flat_map in Hq. destruct Hq as (r' & _ & Hq). apply in_map_iff in Hq. destruct Hq as (j' & <- & _). reflexivity. }
  assert (HR : nth_error (all_primary rs) (i * n + j) = Some (spec_row j (rk_first r j))).
  { clear R8. revert i HI. induction rs as [|x rs IH]; intros [|i] HI; cbn [nth_error] in HI; try discriminate; unfold all_primary; cbn [flat_map]; fold (all_primary rs);
      assert (HX : length (map (fun j => spec_row j (rk_first x j)) (seq 0 (rk_n x))) = n) by (rewrite map_length, seq_length; apply HN; left; auto).
    - injection HI; intros ->. rewrite nth_error_app1 by (rewrite HX; lia). rewrite nth_error_map, (nth_error_nth' _ 0%nat), seq_nth by (rewrite ?seq_length, (HN r (or_introl eq_refl)); lia). reflexivity.
    - rewrite nth_error_app2 by (rewrite HX; lia). rewrite HX. replace (S i * n + j - n)%nat with (i * n + j)%nat by lia. apply IH; auto. intros; apply HN; right; auto. }
  split; [exact HR|]. revert R8 HR. generalize (all_primary rs) as l. generalize (i * n + j)%nat as m. clear. intros m l. revert m. induction l as [|q l IH]; intros [|m] R8 HR; cbn [nth_error] in HR; try discriminate.
  - injection HR; intros ->. reflexivity.
  - cbn [concat]. assert (HQ : length q = 8%nat) by (apply R8; left; auto). rewrite nth_error_app2 by lia. rewrite HQ. replace (S m * 8 - 8)%nat with (m * 8)%nat by lia. apply IH; auto. intros; apply R8; right; auto.
Qed.

(** all ranks run the same input file: [n] events each.  However the run goes: when all processes have returned the primary table
    of the file has a row for each of the ranks times [n] events, and the number in the row of event [j] of rank [i] is [j] *)
Theorem C85_event_numbers : forall (T : Type) (NT : Num T) (code : objinfo) (fld : field T) (garbage : T) (u : option (units T))
    (r0 : rank T) (rs : list (rank T)) (gs : list T) (sos : list (om T)) (cs : list (hconf T)) (n : nat),
  objinfo_inverted code -> (forall r, In r (r0 :: rs) -> rank_ok r) -> small (r0 :: rs) ->
  NoDup (map hc_name cs) -> (forall c, In c cs -> hconf_ok c) -> (forall r, In r (r0 :: rs) -> Forall2 hist_of cs (rk_hists r)) ->
  length gs = length rs -> length sos = length rs -> (forall r, In r (r0 :: rs) -> rk_n r = n) ->
  exists s0 acts, om_new code u = Ok s0 /\
    (forall i r g so, nth_error rs i = Some r -> nth_error gs i = Some g -> nth_error sos i = Some so ->
       exists a, nth_error acts i = Some a /\ slave_main code g fld so [mkSR true (Z.of_nat (rk_n r)) (rk_calls r)] (rk_hists r) = Ok a) /\
    forall w, reach (start (master_main code garbage fld (length rs) s0 [mkSR true (Z.of_nat (rk_n r0)) (rk_calls r0)] (rk_hists r0)) acts) w ->
      forall s, done w s ->
      exists data, lookup (f_tree (om_file s)) ["Particles"; "ParticleSource"; "Primary"]%string = Some (Dat [Z.of_nat (S (length rs) * n); 8%Z] data) /\
        forall i j, (i < S (length rs))%nat -> (j < n)%nat -> nth_error data ((i * n + j) * 8) = Some (nZ (Z.of_nat j)).
Proof.
  intros T NT code fld garbage u r0 rs gs sos cs n H1 H2 H3 H4 H5 H6 H7 H8 HN.
  destruct (C61_gather T NT code fld garbage u r0 rs gs sos cs H1 H2 H3 H4 H5 H6 H7 H8) as (s0 & acts & A & B & C & D & E).
  exists s0, acts. split; [auto|]. split; [auto|]. intros w HW s HS. destruct (E w HW) as (_ & _ & E3). destruct (E3 s HS) as (E4 & _).
  exists (concat (all_primary (r0 :: rs))). split.
  - rewrite E4. do 3 f_equal. f_equal. clear - HN. change (S (length rs)) with (length (r0 :: rs)). revert HN. generalize (r0 :: rs) as l. clear. intros l HN.
    induction l as [|x l IH]; [reflexivity|]. unfold all_primary. cbn [flat_map]. fold (all_primary l). rewrite app_length, map_length, seq_length, (HN x (or_introl eq_refl)).
    rewrite IH by (intros; apply HN; right; auto). cbn [length]. lia.
  - intros i j Hi Hj. destruct (nth_error (r0 :: rs) i) as [r|] eqn:Er; [|apply nth_error_None in Er; cbn [length] in Er; lia].
    exact (proj2 (primary_number n (r0 :: rs) i j r HN Er Hj)).
Qed.
Print Assumptions C85_event_numbers.

(** ** C86 *)
(** with MPI no track is ever written, whatever the input file asks for *)
Theorem C86_no_tracks : forall (T : Type) (NT : Num T) (code : objinfo) (fld : field T) (garbage : T) (u : option (units T))
    (r0 : rank T) (rs : list (rank T)) (gs : list T) (sos : list (om T)) (cs : list (hconf T)),
  objinfo_inverted code -> (forall r, In r (r0 :: rs) -> rank_ok r) -> small (r0 :: rs) ->
  NoDup (map hc_name cs) -> (forall c, In c cs -> hconf_ok c) -> (forall r, In r (r0 :: rs) -> Forall2 hist_of cs (rk_hists r)) ->
  length gs = length rs -> length sos = length rs ->
  exists s0 acts, om_new code u = Ok s0 /\
    (forall i r g so, nth_error rs i = Some r -> nth_error gs i = Some g -> nth_error sos i = Some so ->
       exists a, nth_error acts i = Some a /\ slave_main code g fld so [mkSR true (Z.of_nat (rk_n r)) (rk_calls r)] (rk_hists r) = Ok a) /\
    forall w, reach (start (master_main code garbage fld (length rs) s0 [mkSR true (Z.of_nat (rk_n r0)) (rk_calls r0)] (rk_hists r0)) acts) w ->
      forall s, done w s -> forall q, lookup (f_tree (om_file s)) ("Particles" :: "ParticleTrack" :: q)%string = None.
Proof.
  intros T NT code fld garbage u r0 rs gs sos cs H1 H2 H3 H4 H5 H6 H7 H8.
  destruct (mpi_run code fld garbage u r0 rs gs sos cs H1 H2 H3 H4 H5 H6 H7 H8) as (s0 & acts & A & B & C & D & E).
  exists s0, acts. split; [auto|]. split; [auto|]. intros w HW s [HS _]. destruct (E w HW) as (_ & _ & E3). apply E3. auto.
Qed.
Print Assumptions C86_no_tracks.

(** three ranks with the two events of C56 and a histogram of two bins *)
Definition ex_conf : hconf R := mkHC "h" "Photon" "energy" 0%R 0%R 3%R 2.
Definition ex_rank (v : R) : rank R := mkRank 2 ex_prim ex_fin (fun j => ex_el (INR j)) ex_calls
  [hist_new 0 "h" "Photon" "energy" 0%R 0%R 3%R 2].
Example C61_case : (forall r, In r [ex_rank 0; ex_rank 1; ex_rank 2]%R -> rank_ok r) /\ small [ex_rank 0; ex_rank 1; ex_rank 2]%R /\
  NoDup (map hc_name [ex_conf]) /\ (forall c, In c [ex_conf] -> hconf_ok c) /\
  (forall r, In r [ex_rank 0; ex_rank 1; ex_rank 2]%R -> Forall2 hist_of [ex_conf] (rk_hists r)) /\
  length (all_primary [ex_rank 0; ex_rank 1; ex_rank 2]%R) = 6%nat /\ length (all_final "Electron" [ex_rank 0; ex_rank 1; ex_rank 2]%R) = 6%nat.
Proof.
  destruct C56_case as (A & B & C & D & E & _).
  assert (F : forall v, Forall2 hist_of [ex_conf] (rk_hists (ex_rank v))).
  { intros v. constructor; [|constructor]. exists 0%Z. constructor. }
  split; [intros r [<-|[<-|[<-|[]]]]; (split; [exact B|]; split; [exact C|exact D])|]. split.
  { intros t [<-|[<-|[<-|[<-|[]]]]]; vm_compute; reflexivity. }
  split; [repeat constructor; intros []|]. split.
  { intros c [<-|[]]. split; [|split; [discriminate|cbn; lia]]. intros x [<-|[]]. discriminate. }
  split; [intros r [<-|[<-|[<-|[]]]]; apply F|]. split; vm_compute; reflexivity.
Qed.
(** a histogram of a rank with a particle in it *)
Example C62_case : exists h : hist R, hist_of (mkHC "h" "Photon" "energy" 0 0 3 4)%R h /\ exists i, (i < 4)%nat /\ nth i (hi_values h) 0%R = 1%R.
Proof.
  destruct PropsHist.ex_h_axis as (A & B & C). destruct (add_value_R PropsHist.ex_h 1 A B) as (h & E & _ & _ & _ & I).
  destruct I as (i & (I1 & _) & I2); [apply C; lra|]. exists h. split.
  - exists 0%Z. eapply (fi_app _ _ _ (PropsHist.ph 1)); [constructor|]. fold PropsHist.ex_h. rewrite app_energy by (cbn; lia). rewrite PropsHist.ph_energy by lra. exact E.
  - assert (L : length (hi_centres PropsHist.ex_h) = 4%nat) by reflexivity. rewrite L in I1. exists i. split; [auto|].
    assert (Z0 : hi_values PropsHist.ex_h = repeat 0%R 4) by (unfold PropsHist.ex_h, hist_new, initialise; cbn [hi_values]; rewrite n0_R; reflexivity).
    rewrite Z0 in I2. rewrite I2, nth_upd_same by (rewrite repeat_length; lia). unfold SpecTable.at_. destruct i as [|[|[|[|i]]]]; cbn; try lra; lia.
Qed.
