(** * Property C111: writing the history of one particle, of a list of particles, and the properties of a list *)
From Coq Require Import String Ascii ZArith Reals Lra List Bool Lia Arith.
From Verif Require Import Num RNum Outcome OutcomeFacts Vec SpecVec Units Particle ParticleList Fields Histogram Hdf5 Output OutFacts OutFile PropsOut.
Import ListNotations.
Local Open Scope list_scope.

(** ** Specification *)
Section Spec.
Context {T : Type} `{Num T}.
(** the factor of a quantity: the reference value of the unit system, 1 without one *)
Definition factor (u : option (units T)) (ref : units T -> T) : T := match u with Some x => ref x | None => n1 end.
Definition scaled (f : T) (l : list T) : list T := map (fun x => nmul x f) l.
Definition coordinates (vs : list (vec T)) : list T := concat (map comps vs).
(** the four data sets of a history; gamma is not scaled *)
Definition history (u : option (units T)) (p : particle T) : list (string * node T) :=
  [("Position"%string, Dat [Z.of_nat (length (p_posHist p)); 3%Z] (scaled (factor u ref_length) (coordinates (p_posHist p))));
   ("Momentum"%string, Dat [Z.of_nat (length (p_momHist p)); 3%Z] (scaled (factor u ref_momentum) (coordinates (p_momHist p))));
   ("Time"%string, Dat [Z.of_nat (length (p_timeHist p))] (scaled (factor u ref_time) (p_timeHist p)));
   ("Gamma"%string, Dat [Z.of_nat (length (p_gammaHist p))] (p_gammaHist p))].
(** index, energy and position *)
Definition property_row (i : nat) (p : particle T) : list T := [nZ (Z.of_nat i); get_energy p] ++ comps (p_pos p).

(** ** Proofs *)
Lemma flat_scaled_spec f vs : flat_scaled f vs = scaled f (coordinates vs).
Proof.
  unfold flat_scaled, scaled, coordinates. induction vs as [|v vs IH]; [reflexivity|]. cbn [flat_map map concat app comps].
  rewrite IH. reflexivity.
Qed.
Lemma firstn_whole {A} n (l : list A) : Z.of_nat (length l) = n -> firstn (Z.to_nat n) l = l.
Proof. intros <-. rewrite Nat2Z.id. apply firstn_all. Qed.

Lemma out_arrays_written (s s' : om T) g pos mom a b time gamma : out_arrays s g pos mom a b time gamma = Ok s' ->
  Z.of_nat (length pos) = (a * 3)%Z -> Z.of_nat (length mom) = (b * 3)%Z ->
  forall x nd, In (x, nd) [("Position"%string, Dat [a; 3%Z] pos); ("Momentum"%string, Dat [b; 3%Z] mom);
     ("Time"%string, Dat [len time] time); ("Gamma"%string, Dat [len gamma] gamma)] ->
  lookup (f_tree (om_file s')) (path g ++ [x]) = Some nd.
Proof.
  intros HX LP LM x nd HI. unfold out_arrays in HX.
  change "/Position"%string with ("/" ++ "Position")%string in HX. change "/Momentum"%string with ("/" ++ "Momentum")%string in HX.
  change "/Time"%string with ("/" ++ "Time")%string in HX. change "/Gamma"%string with ("/" ++ "Gamma")%string in HX.
  apply bind_ok in HX. destruct HX as (s1 & A1 & HX). apply bind_ok in HX. destruct HX as (s2 & A2 & HX).
  apply bind_ok in HX. destruct HX as (s3 & A3 & A4). apply o_array_grows in A1, A2, A3, A4. rewrite path_app in A1, A2, A3, A4.
  destruct A1 as [_ A1], A2 as [[G2 _] A2], A3 as [[G3 _] A3], A4 as [[G4 _] A4]. cbn [zprod] in *.
  rewrite firstn_whole in A1 by lia. rewrite firstn_whole in A2 by lia. rewrite firstn_whole in A3 by (unfold len; lia). rewrite firstn_whole in A4 by (unfold len; lia).
  destruct HI as [HI|[HI|[HI|[HI|[]]]]]; injection HI; intros <- <-.
  - apply G4, G3, G2, A1.
  - apply G4, G3, A2.
  - apply G4, A3.
  - exact A4.
Qed.

Lemma history_arrays (s s' : om T) g p : out_arrays s g (flat_scaled (scale_length s) (p_posHist p)) (flat_scaled (scale_momentum s) (p_momHist p))
    (len (p_posHist p)) (len (p_momHist p)) (map (fun t => nmul t (scale_time s)) (p_timeHist p)) (p_gammaHist p) = Ok s' ->
  forall x nd, In (x, nd) (history (om_units s) p) -> lookup (f_tree (om_file s')) (path g ++ [x]) = Some nd.
Proof.
  intros HX x nd HI. eapply out_arrays_written; [exact HX|apply flat_scaled_length|apply flat_scaled_length|].
  unfold len. rewrite map_length. revert HI. rewrite !flat_scaled_spec. exact (fun HI => HI).
Qed.

Lemma single_mom_from (mom : list (vec T)) : forall pre post, mom = pre ++ post ->
  single_mom (length post) mom (Z.of_nat (length pre)) = Ok post.
Proof.
  intros pre post. revert pre. induction post as [|v post IH]; intros pre HM; [reflexivity|]. cbn [length single_mom].
  assert (HG : get mom (Z.of_nat (length pre)) = Ok v).
  { unfold get. subst mom. rewrite app_length. cbn [length]. replace (Z.of_nat (length pre) <? 0)%Z with false by (symmetry; apply Z.ltb_ge; lia).
    replace (_ <=? _)%Z with false by (symmetry; apply Z.leb_gt; lia). cbn [orb]. rewrite Nat2Z.id, nth_error_app2, Nat.sub_diag by lia. reflexivity. }
  rewrite HG. cbn [bind]. replace (Z.of_nat (length pre) + 1)%Z with (Z.of_nat (length (pre ++ [v]))) by (rewrite app_length; cbn [length]; lia).
  rewrite IH by (rewrite <- app_assoc; exact HM). reflexivity.
Qed.
Lemma single_mom_short (mom : list (vec T)) n : forall i, (0 <= i)%Z -> (Z.of_nat (length mom) < i + Z.of_nat n)%Z -> (i <= Z.of_nat (length mom))%Z ->
  single_mom n mom i = UB OutOfBounds.
Proof.
  induction n as [|n IH]; intros i Hi Hl Hn; [lia|]. cbn [single_mom]. destruct (Z.eq_dec i (Z.of_nat (length mom))) as [->|NE].
  - unfold get. replace (Z.of_nat (length mom) <=? Z.of_nat (length mom))%Z with true by (symmetry; apply Z.leb_le; lia). rewrite orb_true_r. reflexivity.
  - destruct (nth_error mom (Z.to_nat i)) eqn:EN.
    2:{ apply nth_error_None in EN. lia. }
    unfold get. replace (i <? 0)%Z with false by (symmetry; apply Z.ltb_ge; lia). replace (_ <=? _)%Z with false by (symmetry; apply Z.leb_gt; lia).
    cbn [orb]. rewrite EN. cbn [bind]. rewrite IH by lia. reflexivity.
Qed.
End Spec.

(** ** C111 *)
Section C111.
Context {T : Type} `{Num T}.
Variable code : objinfo.
Variable garbage : T.
Variable fld : field T.

(** Whenever the history of a tracked particle with as many momenta as positions has been written, the file holds it, in units. *)
Theorem C111_single : forall (s s' : om T) (p : particle T) (name : string), length (p_momHist p) = length (p_posHist p) ->
  single_particle code garbage s p name = Ok s' ->
  p_tracking p = true /\
  forall x nd, In (x, nd) (history (om_units s) p) ->
    lookup (f_tree (om_file s')) (["Particles"; "Single"]%string ++ path name ++ [x]) = Some nd.
Proof.
  intros s s' p name HL HX. unfold single_particle in HX. apply bind_ok in HX. destruct HX as (s1 & H1 & HX).
  assert (HU : om_units s1 = om_units s) by (eapply once_grows in H1; [apply H1 | exact w_single]).
  destruct (p_tracking p) eqn:ET; [|discriminate]. split; [reflexivity|]. cbn [negb] in HX.
  rewrite <- HL in HX at 1. pose proof (single_mom_from (p_momHist p) [] (p_momHist p) eq_refl) as HS. cbn [length Z.of_nat] in HS. rewrite HS in HX. cbn [bind] in HX.
  cbv zeta in HX. rewrite HL, Nat.sub_diag, Nat.mul_0_r, app_nil_r in HX. apply bind_ok in HX. destruct HX as (s2 & H2 & HX).
  apply o_group_grows in H2. destruct H2 as [_ H2]. destruct (scale_same s1 s2 H2) as (E1 & E2 & E3). rewrite <- E1, <- E2, <- E3 in HX.
  intros x nd HI. pose proof (history_arrays _ _ _ _ HX x nd) as HA. rewrite H2, HU in HA. specialize (HA HI).
  change ("Particles/Single/" ++ name)%string with ("Particles/Single" ++ "/" ++ name)%string in HA. rewrite path_app, <- app_assoc in HA. exact HA.
Qed.

(** On a new file the call completes (under the convention in which missing groups are created, see C59). *)
Theorem C111_single_completes : forall u (p : particle T) (name : string), objinfo_inverted code ->
  p_tracking p = true -> length (p_momHist p) = length (p_posHist p) -> no_slash name -> name <> ""%string ->
  exists s0 s', om_new code u = Ok s0 /\ exec_all code garbage fld s0 [OSingle p name] = Ok s'.
Proof.
  intros u p name HI HT HL HN HE. rewrite (om_new_inv code u HI).
  exists (mkOM (mkFile fresh_tree GLive) u false false false [] (mkTab [] []) (mkTab [] []) (mkTab [] []) []).
  assert (PN : path ("Particles/Single/" ++ name) = ["Particles"; "Single"; name]%string).
  { change ("Particles/Single/" ++ name)%string with ("Particles/Single" ++ "/" ++ name)%string. rewrite path_app, (path_one name HN HE). reflexivity. }
  cbn [exec_all exec]. unfold single_particle. cbn [om_single]. rewrite o_group_new; [|exact HI|discriminate|reflexivity|reflexivity]. cbn [bind].
  rewrite HT. cbn [negb].
  pose proof (single_mom_from (p_momHist p) [] (p_momHist p) eq_refl) as HS. cbn [length Z.of_nat] in HS. rewrite HL in HS. rewrite HS. cbn [bind].
  cbv zeta. rewrite HL, Nat.sub_diag, Nat.mul_0_r, app_nil_r.
  rewrite o_group_new; [|auto|discriminate|rewrite PN; reflexivity|rewrite PN; reflexivity]. cbn [bind]. rewrite PN.
  erewrite (out_arrays_new _ _ ["Particles"; "Single"; name]%string); [cbn [bind]; eexists; split; reflexivity| | | | | |].
  - exact PN.
  - discriminate.
  - cbn [with_file om_file f_tree with_single]. rewrite lookup_cons. destruct (list_eq_dec string_dec _ _); [reflexivity|contradiction].
  - intros x HX. cbn [with_file om_file f_tree with_single app]. rewrite lookup_cons. destruct (list_eq_dec string_dec _ _) as [e|_]; [discriminate e|]. 
    rewrite lookup_cons. destruct (list_eq_dec string_dec _ _) as [e|_]; [discriminate e|]. reflexivity.
  - apply flat_scaled_length.
  - apply flat_scaled_length.
Qed.

(** A particle that is not tracked ends the program; a position history longer than the momentum history is read out of bounds. *)
Theorem C111_single_untracked : forall (s : om T) (p : particle T) (name : string),
  p_tracking p = false -> om_single s = true -> single_particle code garbage s p name = Exit 1.
Proof. intros s p name HT HS. unfold single_particle. rewrite HS, HT. reflexivity. Qed.
Theorem C111_single_momenta_missing : forall (s : om T) (p : particle T) (name : string),
  p_tracking p = true -> om_single s = true -> (length (p_momHist p) < length (p_posHist p))%nat ->
  single_particle code garbage s p name = UB OutOfBounds.
Proof.
  intros s p name HT HS HL. unfold single_particle. rewrite HS, HT. cbn [bind negb]. rewrite single_mom_short by lia. reflexivity.
Qed.

(** A list: particle number [m] in group [m] of the list's group. *)
Lemma list_history name (ps : list (particle T)) : forall i s s', list_tracks_from code s name i ps = Ok s' ->
  forall m p, nth_error ps m = Some p -> p_tracking p = true /\ forall x nd, In (x, nd) (history (om_units s) p) ->
    lookup (f_tree (om_file s')) (["Particles"; "ParticleList"]%string ++ path name ++ path (to_string (i + m)) ++ [x]) = Some nd.
Proof.
  induction ps as [|p ps IH]; intros i s s' HX m p' HM; [destruct m; discriminate|].
  cbn [list_tracks_from] in HX. destruct (p_tracking p) eqn:ET; [|discriminate]. cbn [negb] in HX. cbv zeta in HX.
  assert (PE : path ("Particles/ParticleList/" ++ name ++ "/" ++ to_string i) = ["Particles"; "ParticleList"]%string ++ path name ++ path (to_string i)).
  { change ("Particles/ParticleList/" ++ name ++ "/" ++ to_string i)%string with ("Particles/ParticleList" ++ "/" ++ (name ++ "/" ++ to_string i))%string. rewrite !path_app. reflexivity. }
  revert HX PE. generalize ("Particles/ParticleList/" ++ name ++ "/" ++ to_string i)%string. intros g HX PE.
  apply bind_ok in HX. destruct HX as (t & HT & HX). apply bind_ok in HX. destruct HX as (t2 & HT2 & HX).
  pose proof (list_tracks_from_grows code _ _ _ _ _ HX) as G3. pose proof (out_arrays_grows _ _ _ _ _ _ _ _ _ HT2) as G2.
  apply o_group_grows in HT. destruct HT as [_ HU]. destruct (scale_same s t HU) as (E1 & E2 & E3).
  destruct m as [|m]; cbn [nth_error] in HM.
  - injection HM; intros <-. split; [auto|]. intros x nd HI. rewrite Nat.add_0_r. rewrite <- E1, <- E2, <- E3 in HT2.
    pose proof (history_arrays _ _ _ _ HT2 x nd) as HA. rewrite HU in HA. specialize (HA HI). rewrite PE, <- !app_assoc in HA. apply G3. exact HA.
  - replace (i + S m)%nat with (S i + m)%nat by lia. destruct (IH _ _ _ HX m p' HM) as [A B]. split; [auto|].
    rewrite (proj2 G2), HU in B. exact B.
Qed.
Theorem C111_list : forall (s s' : om T) (l : plist (particle T)) (name : string), list_tracks code s l name = Ok s' ->
  forall m p, nth_error (pl_items l) m = Some p -> p_tracking p = true /\
    forall x nd, In (x, nd) (history (om_units s) p) ->
      lookup (f_tree (om_file s')) (["Particles"; "ParticleList"]%string ++ path name ++ [to_string m; x]) = Some nd.
Proof.
  intros s s' l name HX m p HM. unfold list_tracks in HX. apply bind_ok in HX. destruct HX as (s1 & H1 & HX).
  assert (HU : om_units s1 = om_units s) by (eapply once_grows in H1; [apply H1 | exact w_list]).
  apply bind_ok in HX. destruct HX as (s2 & H2 & HX). apply o_group_grows in H2. destruct H2 as [_ H2].
  destruct (list_history name _ _ _ _ HX m p HM) as [A B]. split; [exact A|]. intros x nd HI. rewrite H2, HU in B.
  specialize (B x nd HI). cbn [Nat.add] in B. rewrite (path_one (to_string m)) in B by apply to_string_spec. exact B.
Qed.

(** The properties of a list: one row per particle; the group is named after the list, the data set is the second argument. *)
Lemma prop_rows_spec (ps : list (particle T)) : forall i, prop_rows i ps = concat (map (fun q => property_row (fst q) (snd q)) (combine (seq i (length ps)) ps)).
Proof. induction ps as [|p ps IH]; intros i; [reflexivity|]. cbn [prop_rows length seq combine map concat fst snd]. rewrite IH. reflexivity. Qed.
Lemma rows5 l : (forall r, In r l -> @length T r = 5%nat) -> length (concat l) = (5 * length l)%nat.
Proof.
  induction l as [|r l IH]; intros HL; [reflexivity|]. cbn [concat length]. rewrite app_length, IH by (intros; apply HL; right; auto).
  rewrite (HL r (or_introl eq_refl)). lia.
Qed.
Theorem C111_properties : forall (s s' : om T) (l : plist (particle T)) (set : string),
  list_properties code s l set = Ok s' ->
  lookup (f_tree (om_file s')) (["Particles"; "ParticleList"]%string ++ path (pl_name l) ++ path set) =
  Some (Dat [Z.of_nat (length (pl_items l)); 5%Z]
    (concat (map (fun q => property_row (fst q) (snd q)) (combine (seq 0 (length (pl_items l))) (pl_items l))))).
Proof.
  intros s s' l set HX. unfold list_properties in HX. apply bind_ok in HX. destruct HX as (s1 & H1 & HX). cbv zeta in HX.
  apply bind_ok in HX. destruct HX as (s2 & H2 & HX). apply o_array_grows in HX. destruct HX as [_ HX].
  assert (PE : path (("Particles/ParticleList/" ++ pl_name l) ++ "/" ++ set) = ["Particles"; "ParticleList"]%string ++ path (pl_name l) ++ path set).
  { rewrite path_app. change ("Particles/ParticleList/" ++ pl_name l)%string with ("Particles/ParticleList" ++ "/" ++ pl_name l)%string. rewrite path_app, <- app_assoc. reflexivity. }
  rewrite PE in HX. rewrite HX, prop_rows_spec. unfold pl_n. f_equal. f_equal. apply firstn_whole. rewrite rows5.
  - rewrite map_length, combine_length, seq_length, Nat.min_id. cbn [zprod]. lia.
  - intros r HR. apply in_map_iff in HR. destruct HR as ([i p] & <- & _). reflexivity.
Qed.
End C111.
Print Assumptions C111_single.
Print Assumptions C111_single_completes.
Print Assumptions C111_single_untracked.
Print Assumptions C111_single_momenta_missing.
Print Assumptions C111_list.
Print Assumptions C111_properties.

(** a tracked particle with one point of history, unit of length 3 *)
Example C111_case : exists s,
  exec_all ex_code 7%R (fun _ _ => (mkV 0 0 0, mkV 0 0 0))%R (ex_om (Some ex_units)) [OSingle (ex_el 0) "one"; OListProps (ex_fin 0) "rows"] = Ok s /\
  length (p_momHist (ex_el 0)) = length (p_posHist (ex_el 0)) /\ length (p_posHist (ex_el 0)) = 1%nat /\
  (exists v, lookup (f_tree (om_file s)) ["Particles"; "Single"; "one"; "Position"]%string = Some (Dat [1%Z; 3%Z] v)) /\
  (exists v, lookup (f_tree (om_file s)) ["Particles"; "ParticleList"; "0"; "rows"]%string = Some (Dat [2%Z; 5%Z] v)).
Proof.
  eexists. split; [vm_compute; reflexivity|]. split; [reflexivity|]. split; [reflexivity|].
  split; eexists; vm_compute; reflexivity.
Qed.
