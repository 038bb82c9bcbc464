(** * The histogram reduction, for all schedules *)
From Coq Require Import String ZArith List Bool Lia Arith Permutation.
From Verif Require Import Num Outcome OutcomeFacts Vec Units Particle ParticleList Fields Sim SimFacts Histogram Hdf5 Output OutFacts OutFile Mpi MpiFacts MpiGather.
Import ListNotations.

Section Hist.
Context {T : Type} `{Num T}.
Variable code : objinfo.
Variable garbage : T.

(** a rank before or after its message has been received *)
Record hrank := mkHR { hr_pending : bool; hr_vals : list T; hr_tail : list (act T) }.
Definition stage (x : hrank) : list (act T) := (if hr_pending x then [ASend (mkMsg histTag (PD (hr_vals x)))] else []) ++ ABar :: hr_tail x.
Definition open_vals (xs : list hrank) : list (list T) := map hr_vals (filter hr_pending xs).

Lemma nth_stage xs i m r : nth_error (map stage xs) i = Some (ASend m :: r) ->
  exists a v t b, xs = a ++ mkHR true v t :: b /\ length a = i /\ m = mkMsg histTag (PD v) /\ r = ABar :: t.
Proof.
  intros HN. rewrite nth_error_map in HN. destruct (nth_error xs i) as [[p v t]|] eqn:EN; [|discriminate]. cbn [option_map] in HN. injection HN; intros HS.
  destruct p; [|discriminate]. unfold stage in HS. cbn in HS. injection HS; intros <- <-. apply nth_error_split in EN. destruct EN as (a & b & -> & LA). exists a, v, t, b. auto.
Qed.

Lemma recv_hists_wp (n : nat) : forall xs bins (acc data : list T) (Q : list T -> list (list (act T)) -> Prop), length (open_vals xs) = n ->
  (forall x, In x xs -> Z.of_nat (length (hr_vals x)) = bins) -> Z.of_nat (length data) = bins ->
  (forall vs, Permutation vs (open_vals xs) -> Q (fold_left add_bins vs acc) (map (fun x => ABar :: hr_tail x) xs)) ->
  wp (recv_hists n bins acc data) (map stage xs) Q.
Proof.
  induction n as [|n IH]; intros xs bins acc data Q HL HV HD HQ.
  - cbn [recv_hists wp]. apply length_zero_iff_nil in HL.
    assert (HE : map stage xs = map (fun x => ABar :: hr_tail x) xs).
    { unfold open_vals in HL. apply map_eq_nil in HL. apply map_ext_in. intros x Hx. unfold stage. destruct (hr_pending x) eqn:EP; [|reflexivity].
      exfalso. assert (HX : In x (filter hr_pending xs)) by (apply filter_In; auto). rewrite HL in HX. contradiction. }
    rewrite HE. apply (HQ []). rewrite HL. constructor.
  - cbn [recv_hists wp]. split.
    + destruct (filter hr_pending xs) as [|x l] eqn:EF; [unfold open_vals in HL; rewrite EF in HL; discriminate|].
      assert (HX : In x xs /\ hr_pending x = true) by (apply filter_In; rewrite EF; left; auto). destruct HX as [HX HP].
      apply In_nth_error in HX. destruct HX as (i & HX). exists i. eexists. eexists. rewrite nth_error_map, HX. cbn [option_map]. unfold stage. rewrite HP. reflexivity.
    + intros i m r HN. apply nth_stage in HN. destruct HN as (a & v & t & b & -> & LA & -> & ->). exists v. split; [auto|].
      assert (LV : Z.of_nat (length v) = bins) by (apply (HV (mkHR true v t)); apply in_app_iff; right; left; auto). split; [lia|].
      rewrite skipn_all2 by lia. rewrite app_nil_r.
      replace (upd (map stage (a ++ mkHR true v t :: b)) i (ABar :: t)) with (map stage (a ++ mkHR false v t :: b)).
      * apply IH; auto.
        -- unfold open_vals in *. rewrite filter_app, map_app, app_length in *. cbn [filter hr_pending map length] in *. lia.
        -- intros x Hx. apply in_app_iff in Hx. destruct Hx as [Hx|[<-|Hx]]; [apply HV; apply in_app_iff; auto|exact LV|apply HV; apply in_app_iff; right; right; auto].
        -- intros vs HP. replace (map (fun x => ABar :: hr_tail x) (a ++ mkHR false v t :: b)) with (map (fun x => ABar :: hr_tail x) (a ++ mkHR true v t :: b)) by (rewrite !map_app; reflexivity).
           apply (HQ (v :: vs)). unfold open_vals in *. rewrite filter_app, map_app in *. cbn [filter hr_pending map] in *.
           apply Permutation_cons_app. exact HP.
      * rewrite !map_app. cbn [map]. rewrite <- LA. rewrite <- (map_length stage a). rewrite upd_at. reflexivity.
Qed.

(** ** One histogram *)
Definition hist_entry (h : hist T) (vals : list T) : tree T :=
  [(["Histograms"; hi_name h; "BinValues"]%string, Dat [hi_n h] vals); (["Histograms"; hi_name h; "BinCentres"]%string, Dat [hi_n h] (hi_centres h));
   (["Histograms"; hi_name h]%string, Grp)].
Definition hist_ok (h : hist T) : Prop :=
  no_slash (hi_name h) /\ hi_name h <> ""%string /\ hi_n h = Z.of_nat (length (hi_centres h)) /\ length (hi_values h) = length (hi_centres h).
Definition same_shape (h h' : hist T) : Prop := hi_n h' = hi_n h /\ Z.of_nat (length (hi_values h')) = hi_n h'.

Lemma add_bins_length (b : list T) : forall a, length (add_bins a b) = length a.
Proof. induction b as [|y b IH]; intros [|x a]; cbn [add_bins length]; auto. Qed.
Lemma fold_add_length vs : forall a : list T, length (fold_left add_bins vs a) = length a.
Proof. induction vs as [|v vs IH]; intros a; cbn [fold_left]; [auto|]. rewrite IH. apply add_bins_length. Qed.

Lemma gather_hist_wp (s : om T) h (zs : list (hist T * list (act T))) (Q : om T -> list (list (act T)) -> Prop) : objinfo_inverted code -> hist_ok h ->
  (forall x, In x zs -> same_shape h (fst x)) ->
  f_group (om_file s) <> GFreed -> lookup (f_tree (om_file s)) ["Histograms"%string] = Some Grp ->
  (forall q, lookup (f_tree (om_file s)) ("Histograms"%string :: hi_name h :: q) = None) ->
  (forall vs, Permutation vs (map (fun x => hi_values (fst x)) zs) ->
     Q (with_file s (mkFile (hist_entry h (fold_left add_bins vs (hi_values h)) ++ f_tree (om_file s)) GLive)) (map snd zs)) ->
  wp (gather_hist code garbage (length zs) s h) (map (fun x => slave_hist (fst x) ++ snd x) zs) Q.
Proof.
  intros HI (NS & NE & LN & LV) HZ HG HP HN HQ. unfold gather_hist. cbv zeta.
  apply wp_bind. eapply local_wp. { destruct (Z.ltb_spec (Z.of_nat (length (hi_values h))) (hi_n h)); [lia|reflexivity]. }
  rewrite firstn_all2 by lia.
  apply wp_bind. set (xs := map (fun x => mkHR true (hi_values (fst x)) (snd x)) zs).
  replace (map (fun x => slave_hist (fst x) ++ snd x) zs) with (map stage xs).
  2:{ unfold xs. rewrite map_map. apply map_ext_in. intros x Hx. unfold slave_hist, stage. cbn [hr_pending hr_vals hr_tail app]. destruct (HZ x Hx) as [A B]. rewrite firstn_all2 by lia. reflexivity. }
  assert (OV : open_vals xs = map (fun x => hi_values (fst x)) zs).
  { unfold open_vals, xs. clear. induction zs as [|z zs IH]; cbn [map filter hr_pending]; [auto|]. cbn [map hr_vals]. rewrite IH. auto. }
  apply recv_hists_wp.
  { rewrite OV, map_length. auto. }
  { intros x Hx. unfold xs in Hx. apply in_map_iff in Hx. destruct Hx as (z & <- & Hz). cbn [hr_vals]. destruct (HZ z Hz) as [A B]. lia. }
  { rewrite repeat_length. lia. }
  intros vs HV. rewrite OV in HV. specialize (HQ vs HV).
  assert (PN : path ("Histograms/" ++ hi_name h) = ["Histograms"%string; hi_name h]).
  { change ("Histograms/" ++ hi_name h)%string with ("Histograms" ++ "/" ++ hi_name h)%string. rewrite path_app, (path_one (hi_name h)) by auto. reflexivity. }
  change "/BinValues"%string with ("/" ++ "BinValues")%string. change "/BinCentres"%string with ("/" ++ "BinCentres")%string.
  assert (PV : path (("Histograms/" ++ hi_name h) ++ "/" ++ "BinValues") = ["Histograms"%string; hi_name h; "BinValues"%string]) by (rewrite path_app, PN; reflexivity).
  assert (PC : path (("Histograms/" ++ hi_name h) ++ "/" ++ "BinCentres") = ["Histograms"%string; hi_name h; "BinCentres"%string]) by (rewrite path_app, PN; reflexivity).
  revert PN PV PC. generalize (("Histograms/" ++ hi_name h) ++ "/" ++ "BinValues")%string as gv. generalize (("Histograms/" ++ hi_name h) ++ "/" ++ "BinCentres")%string as gc.
  generalize ("Histograms/" ++ hi_name h)%string as g. intros g gc gv PN PV PC.
  assert (LL : forall x n (t : tree T) p, p <> x -> lookup ((x, n) :: t) p = lookup t p).
  { intros x n t p NQ. rewrite lookup_cons. destruct (list_eq_dec string_dec _ _); [contradiction|auto]. }
  assert (LS : forall x n (t : tree T), lookup ((x, n) :: t) x = Some n).
  { intros x n t. rewrite lookup_cons. destruct (list_eq_dec string_dec _ _); [auto|contradiction]. }
  apply wp_bind. eapply local_wp. { rewrite o_group_new; auto; rewrite ?PN; cbn [exists_ removelast is_group]; rewrite ?HN, ?HP; auto. }
  apply wp_bind. eapply local_wp.
  { rewrite o_array_new; cbn [with_file om_file f_tree f_group]; rewrite ?PC, ?PN; cbn [exists_ removelast is_group zprod]; [reflexivity| | |].
    - rewrite LL by discriminate. rewrite HN. reflexivity.
    - rewrite LS. reflexivity.
    - lia. }
  apply wp_bind. eapply local_wp.
  { rewrite o_array_new; cbn [with_file om_file f_tree f_group]; rewrite ?PV, ?PC, ?PN; cbn [exists_ removelast is_group zprod]; [reflexivity| | |].
    - rewrite !LL by discriminate. rewrite HN. reflexivity.
    - rewrite LL by discriminate. rewrite LS. reflexivity.
    - rewrite fold_add_length. lia. }
  cbn [wp]. split.
  - intros p Hp. apply in_map_iff in Hp. destruct Hp as (x & <- & _). eauto.
  - cbn [with_file om_file f_tree f_group]. unfold hist_entry in HQ. cbn [app] in HQ. unfold with_file in *. cbn [om_file f_tree f_group om_units om_single om_list om_source om_prim om_el om_po om_ph om_tracks].
    rewrite ?PN, ?PC, ?PV. rewrite map_map. cbn [tl]. unfold xs. rewrite map_map. cbn [hr_tail]. exact HQ.
Qed.

(** ** All histograms *)
Fixpoint hists_tree (hs : list (hist T)) (accs : list (list T)) (t : tree T) : tree T :=
  match hs, accs with h :: hs, a :: accs => hists_tree hs accs (hist_entry h a ++ t) | _, _ => t end.
Lemma master_hists_wp hs : forall (s : om T) (zs : list (list (hist T) * list (act T))) (Q : om T -> list (list (act T)) -> Prop), objinfo_inverted code ->
  NoDup (map hi_name hs) -> (forall h, In h hs -> hist_ok h) -> (forall x, In x zs -> Forall2 same_shape hs (fst x)) ->
  f_group (om_file s) <> GFreed -> lookup (f_tree (om_file s)) ["Histograms"%string] = Some Grp ->
  (forall h q, In h hs -> lookup (f_tree (om_file s)) ("Histograms"%string :: hi_name h :: q) = None) ->
  (forall s', om_source s' = om_source s ->
     (forall p, hd ""%string p <> "Histograms"%string -> lookup (f_tree (om_file s')) p = lookup (f_tree (om_file s)) p) ->
     (forall (h : hist T) q, ~ In (hi_name h) (map hi_name hs) -> lookup (f_tree (om_file s')) ("Histograms"%string :: hi_name h :: q) = lookup (f_tree (om_file s)) ("Histograms"%string :: hi_name h :: q)) ->
     (forall k h, nth_error hs k = Some h -> exists vs, Permutation vs (map (fun x => hi_values (nth k (fst x) h)) zs) /\
        lookup (f_tree (om_file s')) ["Histograms"; hi_name h; "BinCentres"]%string = Some (Dat [hi_n h] (hi_centres h)) /\
        lookup (f_tree (om_file s')) ["Histograms"; hi_name h; "BinValues"]%string = Some (Dat [hi_n h] (fold_left add_bins vs (hi_values h)))) ->
     Q s' (map snd zs)) ->
  wp (master_hists code garbage (length zs) s hs) (map (fun x => flat_map slave_hist (fst x) ++ snd x) zs) Q.
Proof.
  induction hs as [|h hs IH]; intros s zs Q HI HD HO HZ HG HP HN HQ; cbn [master_hists].
  - cbn [wp]. replace (map (fun x => flat_map slave_hist (fst x) ++ snd x) zs) with (map snd zs).
    + apply HQ; auto. intros [|k] h HK; discriminate.
    + apply map_ext_in. intros x Hx. pose proof (HZ x Hx) as HF. inversion HF. reflexivity.
  - set (ys := map (fun x : list (hist T) * list (act T) => (hd h (fst x), flat_map slave_hist (tl (fst x)) ++ snd x)) zs).
    replace (map (fun x => flat_map slave_hist (fst x) ++ snd x) zs) with (map (fun x => slave_hist (fst x) ++ snd x) ys).
    2:{ unfold ys. rewrite map_map. apply map_ext_in. intros x Hx. pose proof (HZ x Hx) as HF. inversion HF as [|? h' ? l' HH HT]; subst.
        cbn [fst snd hd tl flat_map]. apply app_assoc. }
    apply wp_bind. replace (length zs) with (length ys) at 1 by (unfold ys; apply map_length).
    inversion HD as [|? ? HNI HD']; subst.
    assert (N0 : forall q, lookup (f_tree (om_file s)) ("Histograms"%string :: hi_name h :: q) = None) by (intros q; apply HN; left; auto).
    assert (SH : forall x, In x ys -> same_shape h (fst x)).
    { intros x Hx. unfold ys in Hx. apply in_map_iff in Hx. destruct Hx as (z & <- & Hz). pose proof (HZ z Hz) as HF. cbn [fst]. destruct (fst z) as [|h' l']; inversion HF; subst; auto. }
    apply gather_hist_wp; auto; [apply HO; left; auto|].
    intros vs HV. set (s1 := with_file s _).
    replace (map snd ys) with (map (fun x => flat_map slave_hist (fst x) ++ snd x) (map (fun x : list (hist T) * list (act T) => (tl (fst x), snd x)) zs)) by (unfold ys; rewrite !map_map; reflexivity).
    replace (length zs) with (length (map (fun x : list (hist T) * list (act T) => (tl (fst x), snd x)) zs)) by apply map_length.
    assert (LH : forall p, hd ""%string p <> "Histograms"%string \/ (exists x q, p = "Histograms"%string :: x :: q /\ x <> hi_name h) \/ p = ["Histograms"%string] ->
      lookup (f_tree (om_file s1)) p = lookup (f_tree (om_file s)) p).
    { intros p Hp. cbn [s1 with_file om_file f_tree hist_entry app]. rewrite !lookup_cons.
      destruct Hp as [Hp|[(x & q & -> & Hx) | ->]].
      - destruct (list_eq_dec string_dec _ _) as [->|_]; [cbn in Hp; contradiction|]. destruct (list_eq_dec string_dec _ _) as [->|_]; [cbn in Hp; contradiction|].
        destruct (list_eq_dec string_dec _ _) as [->|_]; [cbn in Hp; contradiction|reflexivity].
      - destruct (list_eq_dec string_dec _ _) as [E|_]; [congruence|]. destruct (list_eq_dec string_dec _ _) as [E|_]; [congruence|]. destruct (list_eq_dec string_dec _ _) as [E|_]; [congruence|reflexivity].
      - destruct (list_eq_dec string_dec _ _) as [E|_]; [discriminate|]. destruct (list_eq_dec string_dec _ _) as [E|_]; [discriminate|]. destruct (list_eq_dec string_dec _ _) as [E|_]; [discriminate|reflexivity]. }
    assert (NH : forall h', In h' hs -> hi_name h' <> hi_name h) by (intros h' Hh' E; apply HNI; rewrite <- E; apply in_map; auto).
    apply IH; auto.
    + intros x Hx. apply HO. right. auto.
    + intros x Hx. apply in_map_iff in Hx. destruct Hx as (z & <- & Hz). pose proof (HZ z Hz) as HF. cbn [fst]. destruct (fst z) as [|h' l']; inversion HF; subst; auto.
    + discriminate.
    + intros h' q Hh'. rewrite LH; [apply HN; right; auto|]. right. left. eauto.
    + intros s' S0 S1 S2 S3. replace (map snd (map (fun x : list (hist T) * list (act T) => (tl (fst x), snd x)) zs)) with (map snd zs) by (rewrite map_map; reflexivity).
      apply HQ.
      * rewrite S0. reflexivity.
      * intros p Hp. rewrite S1 by auto. apply LH. auto.
      * intros h' q Hh'. cbn [map In] in Hh'. rewrite S2 by tauto. apply LH. right. left. exists (hi_name h'), q. split; [auto|]. intros E. apply Hh'. left. auto.
      * intros [|k] h' HK; cbn [nth_error] in HK.
        -- injection HK; intros <-. exists vs. split.
           { replace (map (fun x : list (hist T) * list (act T) => hi_values (nth 0 (fst x) h)) zs) with (map (fun x : hist T * list (act T) => hi_values (fst x)) ys); [exact HV|].
             unfold ys. rewrite map_map. apply map_ext. intros x. destruct (fst x); reflexivity. }
           rewrite !S2 by auto. cbn [s1 with_file om_file f_tree hist_entry app]. rewrite !lookup_cons. split.
           ++ destruct (list_eq_dec string_dec _ _) as [E|_]; [discriminate|]. destruct (list_eq_dec string_dec _ _) as [_|E]; [reflexivity|contradiction].
           ++ destruct (list_eq_dec string_dec _ _) as [_|E]; [reflexivity|contradiction].
        -- destruct (S3 k h' HK) as (ws & P1 & P2). exists ws. split; [|exact P2]. rewrite map_map in P1. cbn [fst] in P1.
           replace (map (fun x : list (hist T) * list (act T) => hi_values (nth (S k) (fst x) h')) zs) with (map (fun x : list (hist T) * list (act T) => hi_values (nth k (tl (fst x)) h')) zs); [exact P1|].
           apply map_ext. intros x. destruct (fst x); [destruct k; reflexivity|reflexivity].
Qed.
End Hist.
