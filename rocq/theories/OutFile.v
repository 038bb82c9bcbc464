(** * The output manager: what ends up in the file *)
From Coq Require Import String Ascii ZArith List Bool Lia Arith Permutation.
From Verif Require Import Num Outcome OutcomeFacts Vec Units Particle ParticleList Fields Histogram Hdf5 Output OutFacts.
Import ListNotations.

Section OutFile.
Context {T : Type} `{Num T}.
Variable code : objinfo.
Variable garbage : T.
Variable fld : field T.

(** ** The documented return code of the existence query *)
Definition untouched (s : om T) : Prop := om_file s = mkFile [] GNull.

Lemma add_group_documented (f : file T) name : objinfo_documented code -> f_group f <> GFreed ->
  add_group code f name = if exists_ (f_tree f) (path name) then Throw
    else Ok (mkFile (f_tree f) (match f_group f with GNull => GNull | _ => GFreed end)).
Proof.
  intros [HT HF] HG. unfold add_group. destruct (exists_ (f_tree f) (path name)) eqn:EE.
  - rewrite HT. cbn [Z.eqb negb Bool.eqb]. unfold create. rewrite EE. destruct (f_group f); [reflexivity|reflexivity|contradiction].
  - destruct (Z.eqb_spec (code false) 0); [lia|]. cbn [negb Bool.eqb]. destruct (f_group f); [reflexivity|reflexivity|contradiction].
Qed.
Lemma o_group_doc s name s' : objinfo_documented code -> untouched s -> o_group code s name = Ok s' ->
  untouched s' /\ s' = s.
Proof.
  intros HD HU. unfold o_group. rewrite HU. rewrite add_group_documented by (auto; discriminate). cbn [f_tree f_group].
  destruct (exists_ [] (path name)); [discriminate|]. cbn [bind]. intros HX. injection HX; intros <-.
  unfold untouched, with_file. cbn [om_file]. split; [auto|]. destruct s; cbn in *. unfold untouched in HU. cbn in HU. rewrite HU. reflexivity.
Qed.
Lemma o_group_doc_ok s name : objinfo_documented code -> untouched s -> path name <> [] -> o_group code s name = Ok s.
Proof.
  intros HD HU HP. assert (HG : exists s', o_group code s name = Ok s').
  { unfold o_group. rewrite HU. rewrite add_group_documented by (auto; discriminate). cbn [f_tree].
    destruct (path name); [contradiction|]. cbn. eauto. }
  destruct HG as (s' & HG). destruct (o_group_doc s name s' HD HU HG) as [_ ->]. exact HG.
Qed.
Lemma o_array_doc s buf dims name : untouched s -> (2 <= length (path name))%nat -> o_array s buf dims name = Throw.
Proof.
  intros HU HP. unfold o_array, add_array. rewrite HU. cbn [f_tree]. unfold create.
  destruct (path name) as [|a [|b q]]; cbn [length] in HP; [lia|lia|]. cbn [exists_ lookup]. destruct q; reflexivity.
Qed.

Ltac ob HX := let f := fresh "s" in let HF := fresh "HF" in apply bind_ok in HX; destruct HX as (f & HF & HX).

Lemma path2 a b : path a <> [] -> path b <> [] -> (2 <= length (path (a ++ "/" ++ b)))%nat.
Proof. intros HA HB. rewrite path_app, app_length. destruct (path a), (path b); cbn; try contradiction. lia. Qed.
Lemma long_app g b : (2 <= length (path g))%nat -> (2 <= length (path (g ++ "/" ++ b)%string))%nat.
Proof. intros HG. rewrite path_app, app_length. lia. Qed.
Lemma long_end g b : path g <> [] -> path b <> [] -> (2 <= length (path (g ++ String "/" b)%string))%nat.
Proof. apply path2. Qed.
Lemma long_prefix (a b c : string) : (2 <= length (path a))%nat -> (2 <= length (path (a ++ "/" ++ b)%string))%nat.
Proof. apply long_app. Qed.

Lemma out_arrays_doc s g pos mom a b time gamma : untouched s -> path g <> [] -> out_arrays s g pos mom a b time gamma = Throw.
Proof.
  intros HU HP. unfold out_arrays. rewrite o_array_doc; [reflexivity|auto|]. change "/Position"%string with ("/" ++ "Position")%string. apply path2; [auto|discriminate].
Qed.
Lemma head_path a b : path a <> [] -> path (a ++ "/" ++ b)%string <> [].
Proof. intros HA HB. rewrite path_app in HB. apply app_eq_nil in HB. destruct HB; auto. Qed.

Lemma once_doc (b : bool) s g (w : om T -> om T) s' : objinfo_documented code -> untouched s -> (forall x, om_file (w x) = om_file x) ->
  (if b then Ok s else let* s := o_group code s g in Ok (w s)) = Ok s' -> untouched s'.
Proof.
  intros HD HU HW HX. destruct b; [injection HX; intros <-; auto|]. ob HX. injection HX; intros <-. apply o_group_doc in HF; auto.
  destruct HF as [HF _]. unfold untouched. rewrite HW. exact HF.
Qed.
Lemma list_tracks_doc name ps : objinfo_documented code -> forall i s s', untouched s -> list_tracks_from code s name i ps = Ok s' -> untouched s'.
Proof.
  intros HD. destruct ps as [|p ps]; intros i s s' HU HX; cbn [list_tracks_from] in HX; [injection HX; intros <-; auto|].
  destruct (negb (p_tracking p)); [discriminate|]. cbv zeta in HX. ob HX. apply o_group_doc in HF; auto. destruct HF as [HF _].
  rewrite out_arrays_doc in HX; [discriminate|auto|]. change ("Particles/ParticleList/" ++ name ++ "/" ++ to_string i)%string with ("Particles/ParticleList" ++ "/" ++ (name ++ "/" ++ to_string i))%string.
  apply head_path. discriminate.
Qed.
Lemma output_tracks_doc ts : objinfo_documented code -> forall i s s', untouched s -> output_tracks_from code s i ts = Ok s' -> untouched s'.
Proof.
  intros HD. destruct ts as [|p ps]; intros i s s' HU HX; cbn [output_tracks_from] in HX; [injection HX; intros <-; auto|].
  cbv zeta in HX. ob HX. apply o_group_doc in HF; auto. destruct HF as [HF _].
  rewrite out_arrays_doc in HX; [discriminate|auto|]. change ("Particles/ParticleTrack/Event" ++ to_string i)%string with ("Particles/ParticleTrack" ++ "/" ++ ("Event" ++ to_string i))%string.
  apply head_path. discriminate.
Qed.
Lemma output_source_doc s : objinfo_documented code -> untouched s -> forall s', output_source code garbage s <> Ok s'.
Proof.
  intros HD HU s' HX. unfold output_source in HX. ob HX. apply once_doc in HF; auto. ob HX. ob HX. rewrite o_array_doc in HF1; [discriminate|auto|]. vm_compute. lia.
Qed.
Lemma out_dir_doc s g t xs ys zs d s' : untouched s -> path g <> [] -> out_dir garbage fld s g t xs ys zs d <> Ok s'.
Proof.
  intros HU HP HX. unfold out_dir in HX. cbv zeta in HX. ob HX. ob HX. ob HX. rewrite o_array_doc in HF1; [discriminate|auto|].
  change ("/E" ++ to_string d)%string with ("/" ++ ("E" ++ to_string d))%string. apply path2; [auto|].
  unfold path. rewrite path_go_one; [discriminate|]. apply no_slash_app; [intros c [<-|[]]; discriminate|apply to_string_spec].
Qed.
Lemma exec_doc s o s' : objinfo_documented code -> untouched s -> exec code garbage fld s o = Ok s' -> untouched s'.
Proof.
  intros HD HU HX. destruct o as [p name|l name|l name|n|l id|l id|l id|a b|ts xs ys zs|h]; cbn [exec] in HX.
  - unfold single_particle in HX. ob HX. apply once_doc in HF; auto. destruct (negb (p_tracking p)); [discriminate|]. cbv zeta in HX. ob HX. ob HX.
    apply o_group_doc in HF1; auto. destruct HF1 as [HF1 _]. rewrite out_arrays_doc in HX; [discriminate|auto|].
    change ("Particles/Single/" ++ name)%string with ("Particles/Single" ++ "/" ++ name)%string. apply head_path. discriminate.
  - unfold list_tracks in HX. ob HX. apply once_doc in HF; auto. ob HX. apply o_group_doc in HF0; auto. destruct HF0 as [HF0 _]. eapply list_tracks_doc; eauto.
  - unfold list_properties in HX. ob HX. apply once_doc in HF; auto. cbv zeta in HX. ob HX. apply o_group_doc in HF0; auto. destruct HF0 as [HF0 _].
    rewrite o_array_doc in HX; [discriminate|auto|]. apply long_app. change ("Particles/ParticleList/" ++ pl_name l)%string with ("Particles/ParticleList" ++ "/" ++ pl_name l)%string.
    apply long_app. vm_compute. lia.
  - injection HX; intros <-. exact HU.
  - unfold store_primary in HX. ob HX. ob HX. injection HX; intros <-. exact HU.
  - unfold store_final in HX. ob HX. ob HX. ob HX. injection HX; intros <-. exact HU.
  - injection HX; intros <-. exact HU.
  - unfold output_events in HX. ob HX. destruct a; [exfalso; eapply output_source_doc; [| |exact HF]; auto|]. injection HF; intros <-.
    destruct b; [|injection HX; intros <-; auto]. unfold output_track in HX. ob HX. apply once_doc in HF0; auto. eapply output_tracks_doc; eauto.
  - unfold out_field in HX. destruct ts as [|t ts]; cbn [out_field_from] in HX; [injection HX; intros <-; auto|]. cbv zeta in HX. ob HX.
    apply o_group_doc in HF; auto. destruct HF as [HF _]. ob HX. exfalso. eapply out_dir_doc; [exact HF| |exact HF0].
    change ("Fields/" ++ to_string 0)%string with ("Fields" ++ "/" ++ to_string 0)%string. apply head_path. discriminate.
  - unfold out_hist in HX. cbv zeta in HX. ob HX. apply o_group_doc in HF; auto. destruct HF as [HF _]. ob HX. rewrite o_array_doc in HF0; [discriminate|auto|].
    change "/BinCentres"%string with ("/" ++ "BinCentres")%string. apply path2; [|discriminate].
    change ("Histograms/" ++ hi_name h)%string with ("Histograms" ++ "/" ++ hi_name h)%string. apply head_path. discriminate.
Qed.
Lemma exec_all_doc os : objinfo_documented code -> forall s s', untouched s -> exec_all code garbage fld s os = Ok s' -> untouched s'.
Proof.
  intros HD. induction os as [|o os IH]; intros s s' HU HX; cbn [exec_all] in HX; [injection HX; intros <-; auto|].
  ob HX. apply exec_doc in HF; auto. eapply IH; eauto.
Qed.
Lemma om_new_doc u : objinfo_documented code -> exists s, om_new code u = Ok s /\ untouched s.
Proof.
  intros HD. unfold om_new. cbv zeta. set (s := mkOM _ _ _ _ _ _ _ _ _ _).
  assert (HU : untouched s) by reflexivity. rewrite o_group_doc_ok by (auto; discriminate). cbn [bind]. rewrite o_group_doc_ok by (auto; discriminate). cbn [bind].
  rewrite o_group_doc_ok by (auto; discriminate). eauto.
Qed.

(** ** If groups were created when missing *)
Lemma o_group_new (s : om T) name : objinfo_inverted code -> f_group (om_file s) <> GFreed ->
  exists_ (f_tree (om_file s)) (path name) = false -> is_group (f_tree (om_file s)) (removelast (path name)) = true ->
  o_group code s name = Ok (with_file s (mkFile ((path name, Grp) :: f_tree (om_file s)) GLive)).
Proof.
  intros [_ HF] HG HE HP. unfold o_group, add_group. rewrite HE, HF. cbn [Z.eqb negb Bool.eqb]. unfold create. rewrite HE, HP.
  destruct (f_group (om_file s)); [reflexivity|reflexivity|contradiction].
Qed.
Lemma o_array_new (s : om T) buf dims name : exists_ (f_tree (om_file s)) (path name) = false -> is_group (f_tree (om_file s)) (removelast (path name)) = true ->
  Z.of_nat (length buf) = zprod dims ->
  o_array s buf dims name = Ok (with_file s (mkFile ((path name, Dat dims buf) :: f_tree (om_file s)) (f_group (om_file s)))).
Proof.
  intros HE HP HL. unfold o_array, add_array, create. rewrite HE, HP. cbn [bind]. destruct (Z.ltb_spec (Z.of_nat (length buf)) (zprod dims)); [lia|].
  cbn [bind]. rewrite <- HL, Nat2Z.id, firstn_all. reflexivity.
Qed.
Lemma o_array_taken (s : om T) buf dims name : exists_ (f_tree (om_file s)) (path name) = true -> o_array s buf dims name = Throw.
Proof. intros HE. unfold o_array, add_array, create. rewrite HE. reflexivity. Qed.

Definition fresh_tree : tree T := [(["Histograms"%string], Grp); (["Fields"%string], Grp); (["Particles"%string], Grp)].
Lemma om_new_inv u : objinfo_inverted code ->
  om_new code u = Ok (mkOM (mkFile fresh_tree GLive) u false false false [] (mkTab [] []) (mkTab [] []) (mkTab [] []) []).
Proof.
  intros HI. unfold om_new. cbv zeta. rewrite o_group_new by (auto; try discriminate; reflexivity). cbn [bind].
  rewrite o_group_new by (auto; try discriminate; reflexivity). cbn [bind]. rewrite o_group_new by (auto; try discriminate; reflexivity). reflexivity.
Qed.

(** ** Storing events in any order *)
Lemma upd_map_seq {A} (f : nat -> A) n j x : (j < n)%nat -> upd (map f (seq 0 n)) j x = map (fun i => if Nat.eqb i j then x else f i) (seq 0 n).
Proof.
  intros HJ. assert (G : forall m s j, (j < m)%nat -> upd (map f (seq s m)) j x = map (fun i => if Nat.eqb i (s + j) then x else f i) (seq s m)).
  { clear. induction m as [|m IH]; intros s j HJ; [lia|]. destruct j as [|j]; cbn [seq map upd].
    - rewrite Nat.add_0_r, Nat.eqb_refl. f_equal. apply map_ext_in. intros i Hi. apply in_seq in Hi. destruct (Nat.eqb_spec i s); [lia|auto].
    - destruct (Nat.eqb_spec s (s + S j)); [lia|]. f_equal. rewrite (IH (S s) j) by lia. replace (S s + j)%nat with (s + S j)%nat by lia. reflexivity. }
  rewrite (G n 0%nat j HJ). reflexivity.
Qed.

Definition slot_rows (name : string) (F : nat -> option (list (particle T))) (j : nat) : option (list T) :=
  option_map (fun l => concat (rows_of name (Z.of_nat j) l)) (F j).
Definition slot_count (name : string) (F : nat -> option (list (particle T))) (j : nat) : Z :=
  match F j with Some l => Z.of_nat (length (rows_of name (Z.of_nat j) l)) | None => 0%Z end.
Definition slot_tab (name : string) (F : nat -> option (list (particle T))) (n : nat) : table T :=
  mkTab (map (slot_rows name F) (seq 0 n)) (map (slot_count name F) (seq 0 n)).
Definition slots (n : nat) (P : nat -> option (particle T)) (F : nat -> option (list (particle T))) (s : om T) : Prop :=
  om_prim s = map (fun j => option_map (row (Z.of_nat j)) (P j)) (seq 0 n) /\
  om_el s = slot_tab "Electron" F n /\ om_po s = slot_tab "Positron" F n /\ om_ph s = slot_tab "Photon" F n.

Lemma init_slots s n : slots n (fun _ => None) (fun _ => None) (init_source s (Z.of_nat n)).
Proof.
  assert (R : forall A (x : A), map (fun _ : nat => x) (seq 0 n) = repeat x n).
  { intros A x. generalize 0%nat. induction n as [|m IH]; intros k; cbn; [auto|f_equal; auto]. }
  unfold slots, init_source. cbn [om_prim om_el om_po om_ph with_tables with_prim]. rewrite Nat2Z.id. cbn [option_map]. rewrite R.
  unfold slot_tab, slot_rows, slot_count. cbn [option_map]. rewrite !R. auto.
Qed.
Definition set_at {A} (F : nat -> option A) (j : nat) (x : A) : nat -> option A := fun i => if Nat.eqb i j then Some x else F i.

Lemma store_primary_slots n P F s l j p : (j < n)%nat -> slots n P F s -> pl_get l 0 = Ok p ->
  exists s', store_primary s l (Z.of_nat j) = Ok s' /\ slots n (set_at P j p) F s' /\ om_file s' = om_file s /\ om_units s' = om_units s /\ om_tracks s' = om_tracks s /\
    om_list s' = om_list s /\ om_source s' = om_source s /\ om_single s' = om_single s.
Proof.
  intros HJ (A & B) HP. unfold store_primary. rewrite HP. cbn [bind]. rewrite (get_Z _ _ None) by (rewrite A, map_length, seq_length; lia). cbn [bind].
  eexists. split; [reflexivity|]. split; [|cbn; auto 10]. split; [|exact B]. cbn [om_prim with_prim]. rewrite A, Nat2Z.id, upd_map_seq by auto.
  apply map_ext. intros i. unfold set_at. destruct (Nat.eqb_spec i j) as [->|]; reflexivity.
Qed.
Lemma store_species_slots name n F ps j : (j < n)%nat -> (Z.of_nat (length (filter (is_named name) ps)) < 2 ^ 29)%Z ->
  store_species garbage name (Z.of_nat j) ps (slot_tab name F n) = Ok (slot_tab name (set_at F j ps) n).
Proof.
  intros HJ HB. rewrite store_species_eq; cbn [slot_tab tb_count tb_rows]; rewrite ?map_length, ?seq_length; try lia.
  f_equal. unfold slot_tab. rewrite Nat2Z.id, !upd_map_seq by auto. f_equal; apply map_ext; intros i; unfold slot_rows, slot_count, set_at; destruct (Nat.eqb_spec i j) as [->|]; reflexivity.
Qed.
Lemma filter_length_le {A} (f : A -> bool) l : (length (filter f l) <= length l)%nat.
Proof. induction l as [|x l IH]; cbn; [auto|]. destruct (f x); cbn; lia. Qed.
Lemma store_final_slots n P F s l j : (j < n)%nat -> slots n P F s -> (pl_n l < 2 ^ 29)%Z ->
  exists s', store_final garbage s l (Z.of_nat j) = Ok s' /\ slots n P (set_at F j (pl_items l)) s' /\ om_file s' = om_file s /\ om_units s' = om_units s /\ om_tracks s' = om_tracks s /\
    om_list s' = om_list s /\ om_source s' = om_source s /\ om_single s' = om_single s.
Proof.
  intros HJ (A & B & C & D) HB. unfold pl_n in HB. unfold store_final. rewrite B, C, D.
  assert (HL : forall name, (Z.of_nat (length (filter (is_named name) (pl_items l))) < 2 ^ 29)%Z) by (intros name; pose proof (filter_length_le (is_named name) (pl_items l)); lia).
  rewrite !store_species_slots by auto. cbn [bind].
  eexists. split; [reflexivity|]. split; [|cbn; auto 10]. unfold slots. cbn. auto.
Qed.

(** the calls that main makes for the events of one source, in any order *)
Definition event_calls (n : nat) (prim fin : nat -> plist (particle T)) (calls : list (op T)) : Prop :=
  (forall j, (j < n)%nat -> In (OPrimary (prim j) (Z.of_nat j)) calls /\ In (OFinal (fin j) (Z.of_nat j)) calls) /\
  (forall o, In o calls -> exists j, (j < n)%nat /\
     (o = OPrimary (prim j) (Z.of_nat j) \/ o = OFinal (fin j) (Z.of_nat j) \/ o = OTrack (fin j) (Z.of_nat j))).
Definition tracks_of (calls : list (op T)) : list (track T) :=
  flat_map (fun o => match o with OTrack l id => map (track_of id) (pl_items l) | _ => [] end) calls.

Lemma run_calls n prim fin first calls : (forall j, (j < n)%nat -> pl_get (prim j) 0 = Ok (first j)) -> (forall j, (j < n)%nat -> (pl_n (fin j) < 2 ^ 29)%Z) ->
  (forall o, In o calls -> exists j, (j < n)%nat /\
     (o = OPrimary (prim j) (Z.of_nat j) \/ o = OFinal (fin j) (Z.of_nat j) \/ o = OTrack (fin j) (Z.of_nat j))) ->
  forall P F s, slots n P F s -> (forall j p, P j = Some p -> p = first j) -> (forall j l, F j = Some l -> l = pl_items (fin j)) ->
  exists s' P' F', exec_all code garbage fld s calls = Ok s' /\ slots n P' F' s' /\
    (forall j p, P' j = Some p -> p = first j) /\ (forall j l, F' j = Some l -> l = pl_items (fin j)) /\
    (forall j p, P j = Some p -> P' j = Some p) /\ (forall j l, F j = Some l -> F' j = Some l) /\
    (forall j, (j < n)%nat -> In (OPrimary (prim j) (Z.of_nat j)) calls -> P' j = Some (first j)) /\
    (forall j, (j < n)%nat -> In (OFinal (fin j) (Z.of_nat j)) calls -> F' j = Some (pl_items (fin j))) /\
    om_file s' = om_file s /\ om_units s' = om_units s /\ om_tracks s' = om_tracks s ++ tracks_of calls /\
    om_list s' = om_list s /\ om_source s' = om_source s /\ om_single s' = om_single s.
Proof.
  intros HP HF. induction calls as [|o calls IH]; intros HC P F s HS CP CF.
  - exists s, P, F. cbn. rewrite app_nil_r. split; [auto|]. split; [auto|]. split; [auto|]. split; [auto|]. split; [auto|]. split; [auto|].
    split; [intros j _ []|]. split; [intros j _ []|]. auto 10.
  - assert (HC' : forall o, In o calls -> exists j, (j < n)%nat /\ (o = OPrimary (prim j) (Z.of_nat j) \/ o = OFinal (fin j) (Z.of_nat j) \/ o = OTrack (fin j) (Z.of_nat j))) by (intros q Hq; apply HC; right; auto).
    specialize (IH HC'). cbn [exec_all]. destruct (HC o (or_introl eq_refl)) as (j & HJ & [-> | [-> | ->]]); cbn [exec].
    + destruct (store_primary_slots n P F s (prim j) j (first j) HJ HS (HP j HJ)) as (s1 & E1 & S1 & R1 & R2 & R3 & R4 & R5 & R6). rewrite E1. cbn [bind].
      assert (CP1 : forall i p, set_at P j (first j) i = Some p -> p = first i).
      { intros i p. unfold set_at. destruct (Nat.eqb_spec i j) as [->|]; [congruence|apply CP]. }
      destruct (IH _ F s1 S1 CP1 CF) as (s' & P' & F' & E' & S' & A1 & A2 & A3 & A4 & A5 & A6 & A7 & A8 & A9 & A10 & A11 & A12).
      exists s', P', F'. split; [auto|]. split; [auto|]. split; [auto|]. split; [auto|]. split.
      { intros i p HI. apply A3. unfold set_at. destruct (Nat.eqb_spec i j) as [->|]; [|auto]. f_equal. symmetry. apply CP. auto. }
      split; [auto|]. split.
      { intros i Hi [HE|HE]; [|auto]. injection HE; intros E2 _. apply Nat2Z.inj in E2. subst i. apply A3. unfold set_at. rewrite Nat.eqb_refl. auto. }
      split; [intros i Hi [HE|HE]; [discriminate|auto]|]. split; [congruence|]. split; [congruence|]. split; [|split; [congruence|split; congruence]].
      rewrite A9, R3. reflexivity.
    + destruct (store_final_slots n P F s (fin j) j HJ HS (HF j HJ)) as (s1 & E1 & S1 & R1 & R2 & R3 & R4 & R5 & R6). rewrite E1. cbn [bind].
      assert (CF1 : forall i l, set_at F j (pl_items (fin j)) i = Some l -> l = pl_items (fin i)).
      { intros i p. unfold set_at. destruct (Nat.eqb_spec i j) as [->|]; [congruence|apply CF]. }
      destruct (IH P _ s1 S1 CP CF1) as (s' & P' & F' & E' & S' & A1 & A2 & A3 & A4 & A5 & A6 & A7 & A8 & A9 & A10 & A11 & A12).
      exists s', P', F'. split; [auto|]. split; [auto|]. split; [auto|]. split; [auto|]. split; [auto|]. split.
      { intros i p HI. apply A4. unfold set_at. destruct (Nat.eqb_spec i j) as [->|]; [|auto]. f_equal. symmetry. apply CF. auto. }
      split; [intros i Hi [HE|HE]; [discriminate|auto]|]. split.
      { intros i Hi [HE|HE]; [|auto]. injection HE; intros E2 _. apply Nat2Z.inj in E2. subst i. apply A4. unfold set_at. rewrite Nat.eqb_refl. auto. }
      split; [congruence|]. split; [congruence|]. split; [|split; [congruence|split; congruence]].
      rewrite A9, R3. reflexivity.
    + cbn [bind]. assert (S1 : slots n P F (store_track s (fin j) (Z.of_nat j))) by (unfold slots, store_track in *; cbn; auto).
      destruct (IH P F _ S1 CP CF) as (s' & P' & F' & E' & S' & A1 & A2 & A3 & A4 & A5 & A6 & A7 & A8 & A9 & A10 & A11 & A12).
      exists s', P', F'. split; [auto|]. split; [auto|]. split; [auto|]. split; [auto|]. split; [auto|]. split; [auto|].
      split; [intros i Hi [HE|HE]; [discriminate|auto]|]. split; [intros i Hi [HE|HE]; [discriminate|auto]|].
      split; [exact A7|]. split; [exact A8|]. split; [|auto]. rewrite A9. cbn [store_track with_tracks om_tracks tracks_of flat_map]. rewrite <- app_assoc. reflexivity.
Qed.

(** writing elsewhere changes nothing *)
Lemma o_group_other (s : om T) name (s' : om T) q : o_group code s name = Ok s' -> q <> path name -> lookup (f_tree (om_file s')) q = lookup (f_tree (om_file s)) q.
Proof.
  unfold o_group, add_group. intros HX NE. apply bind_ok in HX. destruct HX as (f & HF & HX). injection HX; intros <-.
  apply bind_ok in HF. destruct HF as (g & _ & HF). cbn [with_file om_file]. destruct (Bool.eqb _ false).
  - apply bind_ok in HF. destruct HF as (t & HT & HF). injection HF; intros <-. cbn [f_tree]. apply create_ok in HT. destruct HT as (_ & _ & ->).
    rewrite lookup_cons. destruct (list_eq_dec string_dec _ _); [contradiction|auto].
  - injection HF; intros <-. reflexivity.
Qed.
Lemma o_array_other (s : om T) buf dims name (s' : om T) q : o_array s buf dims name = Ok s' -> q <> path name -> lookup (f_tree (om_file s')) q = lookup (f_tree (om_file s)) q.
Proof.
  unfold o_array, add_array. intros HX NE. apply bind_ok in HX. destruct HX as (f & HF & HX). injection HX; intros <-.
  apply bind_ok in HF. destruct HF as (t & HT & HF). destruct (Z.ltb _ _); [discriminate|]. injection HF; intros <-. cbn [with_file om_file f_tree].
  apply create_ok in HT. destruct HT as (_ & _ & ->). rewrite lookup_cons. destruct (list_eq_dec string_dec _ _); [contradiction|auto].
Qed.

Lemma o_group_rest (s : om T) name (s' : om T) : o_group code s name = Ok s' -> om_tracks s' = om_tracks s /\ om_list s' = om_list s.
Proof. unfold o_group. intros HX. apply bind_ok in HX. destruct HX as (f & _ & HX). injection HX; intros <-. auto. Qed.
Lemma o_array_rest (s : om T) buf dims name (s' : om T) : o_array s buf dims name = Ok s' -> om_tracks s' = om_tracks s /\ om_list s' = om_list s.
Proof. unfold o_array. intros HX. apply bind_ok in HX. destruct HX as (f & _ & HX). injection HX; intros <-. auto. Qed.
Lemma out_species_rest (s : om T) tb buf name (s' : om T) : out_species s tb buf name = Ok s' -> om_tracks s' = om_tracks s /\ om_list s' = om_list s.
Proof. unfold out_species. destruct (Z.ltb _ _); [apply o_array_rest|]. intros HX. injection HX; intros <-. auto. Qed.
Lemma output_source_tracks (s s' : om T) : output_source code garbage s = Ok s' -> om_tracks s' = om_tracks s /\ om_list s' = om_list s.
Proof.
  unfold output_source. intros HX. ob HX. assert (H0 : om_tracks s0 = om_tracks s /\ om_list s0 = om_list s).
  { destruct (om_source s); [injection HF; intros <-; auto|]. ob HF. injection HF; intros <-. apply o_group_rest in HF0. exact HF0. }
  ob HX. ob HX. apply o_array_rest in HF1. ob HX. ob HX. ob HX. ob HX. apply out_species_rest in HF5. ob HX. apply out_species_rest in HF6. apply out_species_rest in HX.
  destruct H0, HF1, HF5, HF6, HX. split; congruence.
Qed.

(** ** Event tables in the file *)
Definition all_rows (name : string) (n : nat) (fin : nat -> plist (particle T)) : list (list T) :=
  flat_map (fun j => rows_of name (Z.of_nat j) (pl_items (fin j))) (seq 0 n).
Definition stored (n : nat) (first : nat -> particle T) (fin : nat -> plist (particle T)) (s : om T) : Prop :=
  om_prim s = map Some (map (fun j => row (Z.of_nat j) (first j)) (seq 0 n)) /\
  forall name tb, In (name, tb) [("Electron"%string, om_el s); ("Positron"%string, om_po s); ("Photon"%string, om_ph s)] ->
    holds tb (map (fun j => rows_of name (Z.of_nat j) (pl_items (fin j))) (seq 0 n)).

Lemma slots_stored n P F s first fin : slots n P F s -> (forall j, (j < n)%nat -> P j = Some (first j)) ->
  (forall j, (j < n)%nat -> F j = Some (pl_items (fin j))) -> stored n first fin s.
Proof.
  intros (A & B & C & D) HP HF. split.
  - rewrite A, map_map. apply map_ext_in. intros j Hj. apply in_seq in Hj. rewrite HP by lia. reflexivity.
  - assert (G : forall name, holds (slot_tab name F n) (map (fun j => rows_of name (Z.of_nat j) (pl_items (fin j))) (seq 0 n))).
    { intros name. unfold holds, slot_tab. cbn [tb_count tb_rows]. split; [|split].
      - rewrite map_map. apply map_ext_in. intros j Hj. apply in_seq in Hj. unfold slot_count. rewrite HF by lia. reflexivity.
      - assert (HQ : forall j, In j (seq 0 n) -> (j < n)%nat) by (intros j Hj; apply in_seq in Hj; lia). revert HQ. generalize (seq 0 n). clear -HF.
        induction l as [|j l IH]; intros HQ; cbn [map]; constructor; [|apply IH; intros; apply HQ; right; auto].
        left. unfold slot_rows. rewrite HF by (apply HQ; left; auto). reflexivity.
      - intros rs r HR. apply in_map_iff in HR. destruct HR as (j & <- & _). apply rows_of8. }
    intros name tb [HX|[HX|[HX|[]]]]; injection HX; intros <- <-; rewrite ?B, ?C, ?D; apply G.
Qed.

Lemma flat_map_rows name n fin : concat (map (fun j => rows_of name (Z.of_nat j) (pl_items (fin j))) (seq 0 n)) = all_rows name n fin.
Proof. unfold all_rows. rewrite flat_map_concat_map. reflexivity. Qed.

(** the data set of a table: absent if there are no rows *)
Definition table_node (rows : list (list T)) : option (node T) :=
  match rows with [] => None | _ => Some (Dat [Z.of_nat (length rows); 8%Z] (concat rows)) end.
Definition table_entry (name : string) (rows : list (list T)) : tree T :=
  match rows with [] => [] | _ => [(["Particles"; "ParticleSource"; name]%string, Dat [Z.of_nat (length rows); 8%Z] (concat rows))] end.

Lemma all_rows8 name n fin r : In r (all_rows name n fin) -> length r = 8%nat.
Proof. unfold all_rows. intros HR. apply in_flat_map in HR. destruct HR as (j & _ & HR). eapply rows_of8; eauto. Qed.
Lemma stored_buffer n first fin s name tb : stored n first fin s ->
  In (name, tb) [("Electron"%string, om_el s); ("Positron"%string, om_po s); ("Photon"%string, om_ph s)] -> (Z.of_nat (length (all_rows name n fin)) < 2 ^ 29)%Z ->
  species_buffer garbage tb = Ok (concat (all_rows name n fin)) /\ total (tb_count tb) = Z.of_nat (length (all_rows name n fin)).
Proof. intros [_ HS] HI HB. rewrite <- flat_map_rows in *. apply species_buffer_eq; auto. Qed.

Lemma out_species_new s tb rows name : total (tb_count tb) = Z.of_nat (length rows) -> (forall r, In r rows -> length r = 8%nat) ->
  path ("Particles/ParticleSource/" ++ name) = ["Particles"; "ParticleSource"; name]%string ->
  lookup (f_tree (om_file s)) ["Particles"; "ParticleSource"; name]%string = None ->
  lookup (f_tree (om_file s)) ["Particles"; "ParticleSource"]%string = Some Grp ->
  out_species s tb (concat rows) name = Ok (with_file s (mkFile (table_entry name rows ++ f_tree (om_file s)) (f_group (om_file s)))).
Proof.
  intros HT H8 HP HN HG. unfold out_species. rewrite HT. destruct rows as [|r rows].
  - cbn. destruct s as [[t g] ? ? ? ? ? ? ? ? ?]. reflexivity.
  - destruct (Z.ltb_spec 0 (Z.of_nat (length (r :: rows)))) as [_|HX]; [|cbn [length] in HX; lia]. rewrite o_array_new.
    + rewrite HP. reflexivity.
    + rewrite HP. cbn [exists_]. rewrite HN. reflexivity.
    + rewrite HP. cbn [removelast is_group]. rewrite HG. reflexivity.
    + rewrite concat_length8 by auto. cbn [zprod]. lia.
Qed.

(** output_source from a state without a source group *)
Lemma output_source_new n first fin s : objinfo_inverted code -> stored n first fin s -> om_source s = false ->
  f_group (om_file s) <> GFreed -> lookup (f_tree (om_file s)) ["Particles"%string] = Some Grp ->
  (forall q, lookup (f_tree (om_file s)) (["Particles"; "ParticleSource"]%string ++ q) = None) ->
  (Z.of_nat n < 2 ^ 29)%Z -> (forall name, (Z.of_nat (length (all_rows name n fin)) < 2 ^ 29)%Z) ->
  exists s', output_source code garbage s = Ok s' /\ om_units s' = om_units s /\ om_tracks s' = om_tracks s /\ om_list s' = om_list s /\
    f_group (om_file s') = GLive /\ om_source s' = true /\
    f_tree (om_file s') = table_entry "Photons" (all_rows "Photon" n fin) ++ table_entry "Positrons" (all_rows "Positron" n fin) ++
      table_entry "Electrons" (all_rows "Electron" n fin) ++
      (["Particles"; "ParticleSource"; "Primary"]%string, Dat [Z.of_nat n; 8%Z] (concat (map (fun j => row (Z.of_nat j) (first j)) (seq 0 n)))) ::
      (["Particles"; "ParticleSource"]%string, Grp) :: f_tree (om_file s).
Proof.
  intros HI HS HB HG HP HN Hn Hr. unfold output_source. rewrite HB.
  pose proof (HN []) as N0. cbn [app] in N0.
  rewrite o_group_new; auto; [|cbn; rewrite N0; reflexivity|cbn; rewrite HP; reflexivity]. cbn [bind].
  destruct HS as [S1 S2]. assert (HS : stored n first fin s) by (split; auto). cbn [with_source with_file om_prim om_el om_po om_ph]. rewrite S1.
  set (rs := map (fun j => row (Z.of_nat j) (first j)) (seq 0 n)).
  assert (HL : length rs = n) by (unfold rs; rewrite map_length, seq_length; auto).
  assert (H8 : forall r, In r rs -> length r = 8%nat) by (intros r Hr'; apply in_map_iff in Hr'; destruct Hr' as (j & <- & _); apply row_length).
  pose proof (prime_rows_eq rs H8 [] (repeat garbage (length (map Some rs) * 8)) 0) as PR. cbn [app] in PR. change (Z.of_nat 0) with 0%Z in PR.
  rewrite PR; [|reflexivity|rewrite repeat_length, map_length; lia|rewrite repeat_length, map_length; cbn [length]; lia]. cbn [bind].
  pose proof (HN ["Primary"%string]) as N1. cbn [app] in N1.
  rewrite o_array_new; cbn [om_file f_tree with_file with_source]; [| | |unfold len; rewrite map_length, HL, concat_length8, HL by auto; cbn [zprod]; lia].
  2:{ change (path "Particles/ParticleSource/Primary") with ["Particles"; "ParticleSource"; "Primary"]%string. cbn [exists_]. rewrite lookup_cons.
      change (path "Particles/ParticleSource") with ["Particles"; "ParticleSource"]%string.
      destruct (list_eq_dec string_dec _ _) as [E1|_]; [discriminate|]. rewrite N1. reflexivity. }
  2:{ change (path "Particles/ParticleSource/Primary") with ["Particles"; "ParticleSource"; "Primary"]%string. cbn [removelast is_group]. rewrite lookup_cons.
      change (path "Particles/ParticleSource") with ["Particles"; "ParticleSource"]%string.
      destruct (list_eq_dec string_dec _ _) as [_|E1]; [reflexivity|contradiction]. }
  cbn [bind with_file with_source om_el om_po om_ph].
  destruct (stored_buffer n first fin s "Electron" (om_el s) HS) as [B1 T1]; [left; auto|auto|].
  destruct (stored_buffer n first fin s "Positron" (om_po s) HS) as [B2 T2]; [right; left; auto|auto|].
  destruct (stored_buffer n first fin s "Photon" (om_ph s) HS) as [B3 T3]; [right; right; left; auto|auto|].
  rewrite B1, B2, B3. cbn [bind].
  assert (ER : forall a b r q (n0 : node T), In (q, n0) (table_entry b r) -> a <> b -> q <> ["Particles"; "ParticleSource"; a]%string).
  { intros a b r q n0 HQ NE HE. destruct r; [contradiction|]. destruct HQ as [HQ|[]]. injection HQ; intros _ <-. injection HE; intros; congruence. }
  assert (LE : forall b r (t : tree T) q, (forall n0, ~ In (q, n0) (table_entry b r)) -> lookup (table_entry b r ++ t) q = lookup t q).
  { intros b r t q HQ. destruct r as [|x r]; [reflexivity|]. cbn [table_entry app]. rewrite lookup_cons.
    destruct (list_eq_dec string_dec q ["Particles"; "ParticleSource"; b]%string) as [->|]; [|auto]. exfalso. eapply HQ. left. reflexivity. }
  assert (NE : forall a b r, a <> b -> forall n0 : node T, ~ In (["Particles"; "ParticleSource"; a]%string, n0) (table_entry b r)).
  { intros a b r HAB n0 HX. eapply (ER a b r); eauto. }
  assert (NS : forall b r (n0 : node T), ~ In (["Particles"; "ParticleSource"]%string, n0) (table_entry b r)).
  { intros b r n0 HX. destruct r; [contradiction|]. destruct HX as [HX|[]]. discriminate. }
  assert (BASE : forall a, a <> "Primary"%string -> lookup ((path "Particles/ParticleSource/Primary", Dat [len (map Some rs); 8%Z] (concat rs)) ::
      (path "Particles/ParticleSource", Grp) :: f_tree (om_file s)) ["Particles"; "ParticleSource"; a]%string = None).
  { intros a Ha. rewrite lookup_cons. destruct (list_eq_dec string_dec _ _) as [E1|_]; [injection E1; intros; congruence|].
    rewrite lookup_cons. destruct (list_eq_dec string_dec _ _) as [E1|_]; [discriminate|]. apply (HN [a]). }
  assert (BASEG : lookup ((path "Particles/ParticleSource/Primary", Dat [len (map Some rs); 8%Z] (concat rs)) ::
      (path "Particles/ParticleSource", Grp) :: f_tree (om_file s)) ["Particles"; "ParticleSource"]%string = Some Grp) by reflexivity.
  rewrite (out_species_new _ (om_el s) (all_rows "Electron" n fin) "Electrons"); auto;
    [|intros r; apply all_rows8|cbn [with_file with_source om_file f_tree]; apply BASE; discriminate]. cbn [bind with_file with_source om_file f_tree om_el om_po om_ph f_group].
  rewrite (out_species_new _ (om_po s) (all_rows "Positron" n fin) "Positrons"); auto;
    [|intros r; apply all_rows8|cbn [with_file with_source om_file f_tree]; rewrite LE by (apply NE; discriminate); apply BASE; discriminate
     |cbn [with_file with_source om_file f_tree]; rewrite LE by apply NS; apply BASEG]. cbn [bind with_file with_source om_file f_tree om_el om_po om_ph f_group].
  rewrite (out_species_new _ (om_ph s) (all_rows "Photon" n fin) "Photons"); auto;
    [|intros r; apply all_rows8|cbn [with_file with_source om_file f_tree]; rewrite !LE by (apply NE; discriminate); apply BASE; discriminate
     |cbn [with_file with_source om_file f_tree]; rewrite !LE by apply NS; apply BASEG]. cbn [bind with_file with_source om_file f_tree om_el om_po om_ph f_group].
  eexists. split; [reflexivity|]. cbn [with_file om_file f_tree om_units om_tracks om_list f_group with_source]. split; [auto|]. split; [auto|]. split; [auto|]. split; [auto|]. split; [auto|].
  unfold len. rewrite map_length, HL. reflexivity.
Qed.

(** ** Tracks in the file *)
Definition ev (i : nat) : string := ("Event" ++ to_string i)%string.
Definition tpath (i : nat) : list string := ["Particles"; "ParticleTrack"; ev i]%string.
Lemma ev_inj i j : ev i = ev j -> i = j.
Proof. unfold ev. intros HX. apply append_cancel in HX. apply to_string_inj. auto. Qed.
Lemma tpath_inj i j q r : tpath i ++ q = tpath j ++ r -> i = j.
Proof. intros HX. apply (f_equal (fun l => nth 2 l ""%string)) in HX. cbn [tpath app nth] in HX. apply ev_inj. exact HX. Qed.
Lemma tpath_inj' i j q : tpath i ++ q = tpath j -> i = j.
Proof. intros HX. apply (tpath_inj i j q []). rewrite app_nil_r. exact HX. Qed.
Lemma path_ev i : path ("Particles/ParticleTrack/Event" ++ to_string i) = tpath i.
Proof.
  change ("Particles/ParticleTrack/Event" ++ to_string i)%string with ("Particles/ParticleTrack" ++ "/" ++ ev i)%string. rewrite path_app.
  rewrite (path_one (ev i)); [reflexivity| |discriminate]. apply no_slash_app; [|apply to_string_spec].
  intros c HC. repeat (destruct HC as [<-|HC]; [discriminate|]). contradiction.
Qed.

Definition track_nodes (s : om T) (k : track T) : list (string * node T) :=
  [("Position"%string, Dat [len (tk_pos k); 3%Z] (flat_scaled (scale_length s) (tk_pos k)));
   ("Momentum"%string, Dat [len (tk_mom k); 3%Z] (flat_scaled (scale_momentum s) (tk_mom k)));
   ("Time"%string, Dat [len (tk_time k)] (map (fun x => nmul x (scale_time s)) (tk_time k)));
   ("Gamma"%string, Dat [len (tk_gamma k)] (map (fun x => nmul x (scale_time s)) (tk_gamma k)))].

Lemma flat_scaled_length f (vs : list (vec T)) : Z.of_nat (length (flat_scaled f vs)) = (len vs * 3)%Z.
Proof. unfold len. induction vs as [|v vs IH]; [reflexivity|]. cbn [flat_scaled flat_map app length] in *. unfold flat_scaled in IH. lia. Qed.
Lemma scale_same (s s' : om T) : om_units s' = om_units s -> scale_length s' = scale_length s /\ scale_momentum s' = scale_momentum s /\ scale_time s' = scale_time s.
Proof. unfold scale_length, scale_momentum, scale_time. intros ->. auto. Qed.

Lemma out_arrays_new (s : om T) g gp pos mom a b time gamma : path g = gp -> gp <> [] -> lookup (f_tree (om_file s)) gp = Some Grp ->
  (forall x, In x ["Position"; "Momentum"; "Time"; "Gamma"]%string -> lookup (f_tree (om_file s)) (gp ++ [x]) = None) ->
  Z.of_nat (length pos) = (a * 3)%Z -> Z.of_nat (length mom) = (b * 3)%Z ->
  out_arrays s g pos mom a b time gamma = Ok (with_file s (mkFile
     ((gp ++ ["Gamma"%string], Dat [len gamma] gamma) :: (gp ++ ["Time"%string], Dat [len time] time) ::
      (gp ++ ["Momentum"%string], Dat [b; 3%Z] mom) :: (gp ++ ["Position"%string], Dat [a; 3%Z] pos) :: f_tree (om_file s)) (f_group (om_file s)))).
Proof.
  intros HP HNE HG HN L1 L2.
  assert (PA : forall x, In x ["Position"; "Momentum"; "Time"; "Gamma"]%string -> path (g ++ "/" ++ x) = gp ++ [x]).
  { intros x HX. rewrite path_app, HP. f_equal. destruct HX as [<-|[<-|[<-|[<-|[]]]]]; reflexivity. }
  assert (EX : forall (t : tree T) x, lookup t (gp ++ [x]) = None -> exists_ t (gp ++ [x]) = false).
  { intros t x HX. destruct (gp ++ [x]) eqn:EA; [apply app_eq_nil in EA; destruct EA; discriminate|]. cbn [exists_]. rewrite HX. reflexivity. }
  assert (IG : forall (t : tree T) x, lookup t gp = Some Grp -> is_group t (removelast (gp ++ [x])) = true).
  { intros t x HX. rewrite removelast_last. destruct gp; [contradiction|]. cbn [is_group]. rewrite HX. reflexivity. }
  assert (NP : forall x, gp <> gp ++ [x]).
  { intros x HX. apply (f_equal (@length _)) in HX. rewrite app_length in HX. cbn in HX. lia. }
  assert (NX : forall x y : string, x <> y -> gp ++ [x] <> gp ++ [y]) by (intros x y NE HX; apply app_inv_head in HX; congruence).
  assert (LK : forall x y n (t : tree T), x <> y -> lookup ((gp ++ [y], n) :: t) (gp ++ [x]) = lookup t (gp ++ [x])).
  { intros x y n t NE. rewrite lookup_cons. destruct (list_eq_dec string_dec _ _) as [E1|_]; [exfalso; apply (NX x y NE); auto|auto]. }
  assert (LG : forall y n (t : tree T), lookup ((gp ++ [y], n) :: t) gp = lookup t gp).
  { intros y n t. rewrite lookup_cons. destruct (list_eq_dec string_dec _ _) as [E1|_]; [exfalso; apply (NP y); auto|auto]. }
  unfold out_arrays. change "/Position"%string with ("/" ++ "Position")%string. change "/Momentum"%string with ("/" ++ "Momentum")%string.
  change "/Time"%string with ("/" ++ "Time")%string. change "/Gamma"%string with ("/" ++ "Gamma")%string.
  rewrite o_array_new; [|rewrite PA by (cbn; auto); apply EX; apply HN; cbn; auto|rewrite PA by (cbn; auto); apply IG; auto|cbn [zprod]; lia].
  cbn [bind with_file om_file f_tree]. rewrite PA by (cbn; auto).
  rewrite o_array_new; cbn [with_file om_file f_tree]; [|rewrite PA by (cbn; auto); apply EX; rewrite LK by discriminate; apply HN; cbn; auto|rewrite PA by (cbn; auto); apply IG; rewrite LG; auto|cbn [zprod]; lia].
  cbn [bind with_file om_file f_tree]. rewrite PA by (cbn; auto).
  rewrite o_array_new; cbn [with_file om_file f_tree]; [|rewrite PA by (cbn; auto); apply EX; rewrite !LK by discriminate; apply HN; cbn; auto|rewrite PA by (cbn; auto); apply IG; rewrite !LG; auto|unfold len; cbn [zprod]; lia].
  cbn [bind with_file om_file f_tree]. rewrite PA by (cbn; auto).
  rewrite o_array_new; cbn [with_file om_file f_tree]; [|rewrite PA by (cbn; auto 6); apply EX; rewrite !LK by discriminate; apply HN; cbn; auto 6|rewrite PA by (cbn; auto 6); apply IG; rewrite !LG; auto|unfold len; cbn [zprod]; lia].
  rewrite PA by (cbn; auto 6). reflexivity.
Qed.

Lemma output_tracks_new ts : objinfo_inverted code -> forall i (s : om T), f_group (om_file s) <> GFreed ->
  lookup (f_tree (om_file s)) ["Particles"; "ParticleTrack"]%string = Some Grp ->
  (forall j q, (i <= j)%nat -> lookup (f_tree (om_file s)) (tpath j ++ q) = None) ->
  exists s', output_tracks_from code s i ts = Ok s' /\ ogrows s s' /\ f_group (om_file s') <> GFreed /\
    forall m k x nd, nth_error ts m = Some k -> In (x, nd) (track_nodes s k) -> lookup (f_tree (om_file s')) (tpath (i + m) ++ [x]) = Some nd.
Proof.
  intros HI. induction ts as [|k ts IH]; intros i s HG HP HN; cbn [output_tracks_from].
  - exists s. split; [auto|]. split; [apply ogrows_refl|]. split; [auto|]. intros m k x nd HM. destruct m; discriminate.
  - cbv zeta.
    assert (TI : tpath i = path ("Particles/ParticleTrack/Event" ++ to_string i)) by (rewrite path_ev; auto).
    assert (N0 : lookup (f_tree (om_file s)) (tpath i) = None) by (rewrite <- (app_nil_r (tpath i)); apply HN; lia).
    rewrite o_group_new; auto.
    2:{ rewrite path_ev. unfold tpath in *. cbn [exists_]. rewrite N0. reflexivity. }
    2:{ rewrite path_ev. unfold tpath. cbn [removelast is_group]. rewrite HP. reflexivity. }
    cbn [bind]. rewrite path_ev. set (s1 := with_file s _).
    assert (HS : scale_length s1 = scale_length s /\ scale_momentum s1 = scale_momentum s /\ scale_time s1 = scale_time s) by (apply scale_same; reflexivity).
    destruct HS as (Z1 & Z2 & Z3).
    assert (LT : forall j q (t : tree T), j <> i -> lookup ((tpath i, Grp) :: t) (tpath j ++ q) = lookup t (tpath j ++ q)).
    { intros j q t NE. rewrite lookup_cons. destruct (list_eq_dec string_dec _ _) as [E1|_]; [|auto]. exfalso. apply tpath_inj' in E1. auto. }
    rewrite (out_arrays_new s1 _ (tpath i)); [|apply path_ev|discriminate| | |apply flat_scaled_length|apply flat_scaled_length].
    2:{ cbn [s1 with_file om_file f_tree]. rewrite lookup_cons. destruct (list_eq_dec string_dec _ _) as [_|E1]; [auto|contradiction]. }
    2:{ intros x _. cbn [s1 with_file om_file f_tree]. rewrite lookup_cons. destruct (list_eq_dec string_dec _ _) as [E1|_]; [|apply HN; lia].
        exfalso. apply (f_equal (@length _)) in E1. rewrite app_length in E1. cbn in E1. lia. }
    cbn [bind s1 with_file om_file f_tree f_group]. fold s1. set (s2 := with_file s1 _).
    assert (HT2 : forall j q, j <> i -> lookup (f_tree (om_file s2)) (tpath j ++ q) = lookup (f_tree (om_file s)) (tpath j ++ q)).
    { intros j q NE. cbn [s2 with_file om_file f_tree]. rewrite !lookup_cons.
      assert (NQ : forall y, tpath j ++ q <> tpath i ++ [y]) by (intros y E1; apply tpath_inj in E1; auto).
      repeat (destruct (list_eq_dec string_dec _ _) as [E1|_]; [exfalso; eapply NQ; exact E1|]).
      destruct (list_eq_dec string_dec (tpath j ++ q) (tpath i)) as [E1|_]; [|auto]. exfalso. apply tpath_inj' in E1. auto. }
    destruct (IH (S i) s2) as (s' & E' & G' & F' & L').
    + cbn. discriminate.
    + cbn [s2 with_file om_file f_tree]. rewrite !lookup_cons.
      repeat (destruct (list_eq_dec string_dec _ _) as [E1|_]; [exfalso; discriminate|]). exact HP.
    + intros j q HJ. rewrite HT2 by lia. apply HN. lia.
    + exists s'. split; [exact E'|].
      assert (G2 : ogrows s s2).
      { split; [|reflexivity]. intros p n0 HL. cbn [s2 with_file om_file f_tree]. rewrite !lookup_cons.
        assert (NQ : forall q, p <> tpath i ++ q) by (intros q ->; rewrite HN in HL by lia; discriminate).
        repeat (destruct (list_eq_dec string_dec p (tpath i ++ _)) as [E1|_]; [exfalso; eapply NQ; exact E1|]).
        destruct (list_eq_dec string_dec p (tpath i)) as [E1|_]; [exfalso; apply (NQ []); rewrite app_nil_r; auto|auto]. }
      split; [eapply ogrows_trans; eauto|]. split; [auto|].
      intros m k' x nd HM HX. destruct m as [|m]; cbn [nth_error] in HM.
      * injection HM; intros <-. rewrite Nat.add_0_r. apply G'. unfold track_nodes in HX. cbn [s2 with_file om_file f_tree]. rewrite !lookup_cons. rewrite Z1, Z2, Z3.
        assert (NX : forall x y : string, x <> y -> tpath i ++ [x] <> tpath i ++ [y]) by (intros u v NE HE; apply app_inv_head in HE; congruence).
        destruct HX as [HX|[HX|[HX|[HX|[]]]]]; injection HX; intros <- <-.
        all: repeat (destruct (list_eq_dec string_dec _ _) as [E1|?]; [first [apply NX in E1; [contradiction|discriminate] | unfold len; rewrite ?map_length; reflexivity]|try contradiction]).
      * replace (i + S m)%nat with (S i + m)%nat by lia. apply (L' m k' x nd HM). unfold track_nodes in *.
        destruct (scale_same s s2 eq_refl) as (-> & -> & ->). exact HX.
Qed.

Lemma output_track_new (s : om T) : objinfo_inverted code -> om_list s = false -> f_group (om_file s) <> GFreed ->
  lookup (f_tree (om_file s)) ["Particles"%string] = Some Grp ->
  (forall q, lookup (f_tree (om_file s)) (["Particles"; "ParticleTrack"]%string ++ q) = None) ->
  exists s', output_track code s = Ok s' /\ ogrows s s' /\ f_group (om_file s') <> GFreed /\
    forall m k x nd, nth_error (om_tracks s) m = Some k -> In (x, nd) (track_nodes s k) -> lookup (f_tree (om_file s')) (tpath m ++ [x]) = Some nd.
Proof.
  intros HI HB HG HP HN. unfold output_track. rewrite HB. pose proof (HN []) as N0. cbn [app] in N0.
  rewrite o_group_new; auto; [|cbn; rewrite N0; reflexivity|cbn; rewrite HP; reflexivity]. cbn [bind].
  set (s1 := with_list _).
  destruct (output_tracks_new (om_tracks s) HI 0 s1) as (s' & E' & G' & F' & L').
  - discriminate.
  - reflexivity.
  - intros j q _. cbn [s1 with_list with_file om_file f_tree]. rewrite lookup_cons. destruct (list_eq_dec string_dec _ _) as [E1|_]; [discriminate|].
    apply (HN (ev j :: q)).
  - exists s'. split; [exact E'|]. split.
    + eapply ogrows_trans; [|exact G']. split; [|reflexivity]. intros p n0 HL. cbn [s1 with_list with_file om_file f_tree]. rewrite lookup_cons.
      destruct (list_eq_dec string_dec _ _) as [E1|_]; [|auto]. exfalso. rewrite E1 in HL. change (path "Particles/ParticleTrack") with ["Particles"; "ParticleTrack"]%string in HL. congruence.
    + split; [auto|]. intros m k x nd HM HX. apply (L' m k x nd HM). unfold track_nodes in *. destruct (scale_same s s1 eq_refl) as (-> & -> & ->). exact HX.
Qed.

(** ** Field grids *)
Definition flat_index (ny nz : nat) (g : nat * nat * nat) : nat := let '(i, j, k) := g in (i * ny * nz + j * nz + k)%nat.
Lemma seq_shift_map a n : map (fun k => (a + k)%nat) (seq 0 n) = seq a n.
Proof.
  assert (G : forall n b, map (fun k => (a + k)%nat) (seq b n) = seq (a + b) n).
  { clear. induction n as [|n IH]; intros b; cbn; [auto|]. f_equal. rewrite IH. f_equal. lia. }
  rewrite G. f_equal. lia.
Qed.
Lemma grid_indices nx ny nz : map (flat_index ny nz) (grid nx ny nz) = seq 0 (nx * ny * nz).
Proof.
  assert (R1 : forall i ny0 j0, map (flat_index ny nz) (flat_map (fun j => map (fun k => (i, j, k)) (seq 0 nz)) (seq j0 ny0)) = seq (i * ny * nz + j0 * nz) (ny0 * nz)).
  { intros i. induction ny0 as [|m IH]; intros j0; [reflexivity|]. cbn [seq flat_map]. rewrite map_app, IH, map_map. cbn [flat_index].
    assert (E1 : map (fun k => (i * ny * nz + j0 * nz + k)%nat) (seq 0 nz) = seq (i * ny * nz + j0 * nz) nz) by apply seq_shift_map.
    rewrite E1. replace (S m * nz)%nat with (nz + m * nz)%nat by lia. rewrite seq_app. f_equal. f_equal. lia. }
  assert (R2 : forall m i0, map (flat_index ny nz) (flat_map (fun i => flat_map (fun j => map (fun k => (i, j, k)) (seq 0 nz)) (seq 0 ny)) (seq i0 m)) = seq (i0 * ny * nz) (m * ny * nz)).
  { induction m as [|m IH]; intros i0; [reflexivity|]. cbn [seq flat_map]. rewrite map_app, IH, R1. rewrite Nat.mul_0_l, Nat.add_0_r.
    replace (S m * ny * nz)%nat with (ny * nz + m * ny * nz)%nat by lia. rewrite seq_app. f_equal. f_equal. lia. }
  apply R2.
Qed.
Lemma grid_fill_seq (q : nat * nat * nat -> T) ny nz gs : forall pre post : list T, map (flat_index ny nz) gs = seq (length pre) (length gs) -> length post = length gs ->
  (Z.of_nat (length pre + length gs) <= 2 ^ 32)%Z -> grid_fill q ny nz gs (pre ++ post) = Ok (pre ++ map q gs).
Proof.
  induction gs as [|g gs IH]; intros pre post HM HL HB; cbn [grid_fill map length] in *.
  - destruct post; [reflexivity|discriminate].
  - destruct post as [|x post]; [discriminate|]. cbn [length] in HL. cbn [seq] in HM. injection HM; intros HM1 HM2. clear HM.
    assert (GI : grid_index ny nz g = Z.of_nat (length pre)).
    { destruct g as [[i j] k]. cbn [grid_index flat_index] in *. rewrite HM2. apply u32_id. lia. }
    rewrite GI, put_here. cbn [bind]. replace (pre ++ q g :: post) with ((pre ++ [q g]) ++ post) by (rewrite <- app_assoc; reflexivity).
    rewrite IH; [rewrite <- app_assoc; reflexivity| |lia|rewrite app_length; cbn [length]; lia]. rewrite app_length. cbn [length]. rewrite Nat.add_1_r. exact HM1.
Qed.
Lemma grid_length nx ny nz : length (grid nx ny nz) = (nx * ny * nz)%nat.
Proof. rewrite <- (map_length (flat_index ny nz)), grid_indices, seq_length. reflexivity. Qed.
Lemma grid_fill_all (q : nat * nat * nat -> T) nx ny nz : (Z.of_nat (nx * ny * nz) <= 2 ^ 32)%Z ->
  grid_fill q ny nz (grid nx ny nz) (repeat garbage (nx * ny * nz)) = Ok (map q (grid nx ny nz)).
Proof.
  intros HB. change (repeat garbage (nx * ny * nz)) with ([] ++ repeat garbage (nx * ny * nz)). rewrite grid_fill_seq; [reflexivity| | |].
  - rewrite grid_indices, grid_length. reflexivity.
  - rewrite repeat_length, grid_length. reflexivity.
  - rewrite grid_length. cbn [length]. lia.
Qed.
Lemma in_grid nx ny nz i j k : In (i, j, k) (grid nx ny nz) <-> (i < nx /\ j < ny /\ k < nz)%nat.
Proof.
  unfold grid. rewrite in_flat_map. split.
  - intros (i' & HI & HX). apply in_flat_map in HX. destruct HX as (j' & HJ & HX). apply in_map_iff in HX. destruct HX as (k' & HK & HX).
    injection HK; intros; subst. apply in_seq in HI, HJ, HX. lia.
  - intros (HI & HJ & HK). exists i. split; [apply in_seq; lia|]. apply in_flat_map. exists j. split; [apply in_seq; lia|]. apply in_map_iff. exists k.
    split; [auto|apply in_seq; lia].
Qed.
Lemma flat_index_inj ny nz i j k i' j' k' : (j < ny -> k < nz -> j' < ny -> k' < nz ->
  flat_index ny nz (i, j, k) = flat_index ny nz (i', j', k') -> i = i' /\ j = j' /\ k = k')%nat.
Proof.
  cbn [flat_index]. intros HJ HK HJ' HK' HX.
  assert (E1 : (nz * (i * ny + j) + k = nz * (i' * ny + j') + k')%nat) by lia.
  destruct (Nat.div_mod_unique nz _ _ _ _ HK HK' E1) as [E2 E3].
  assert (E4 : (ny * i + j = ny * i' + j')%nat) by lia. destruct (Nat.div_mod_unique ny _ _ _ _ HJ HJ' E4). auto.
Qed.
Lemma grid_nth (A : Type) (q : nat * nat * nat -> A) nx ny nz i j k : (i < nx -> j < ny -> k < nz ->
  nth_error (map q (grid nx ny nz)) (i * ny * nz + j * nz + k) = Some (q (i, j, k)))%nat.
Proof.
  intros HI HJ HK. assert (HIN : In (i, j, k) (grid nx ny nz)) by (apply in_grid; auto).
  apply In_nth_error in HIN. destruct HIN as (m & HM).
  assert (HX : nth_error (map (flat_index ny nz) (grid nx ny nz)) m = Some (flat_index ny nz (i, j, k))) by (rewrite nth_error_map, HM; reflexivity).
  rewrite grid_indices in HX. assert (HL : (m < nx * ny * nz)%nat) by (rewrite <- (grid_length nx ny nz); apply nth_error_Some; congruence).
  rewrite (nth_error_nth' _ 0%nat) in HX by (rewrite seq_length; auto). rewrite seq_nth in HX by auto. injection HX; intros HM2. cbn [flat_index] in HM2.
  rewrite nth_error_map. cbn [Nat.add] in HM2. rewrite <- HM2, HM. reflexivity.
Qed.

Definition fpath (i : nat) : list string := ["Fields"%string; to_string i].
Definition ename (d : nat) : string := ("E" ++ to_string d)%string.
Definition bname (d : nat) : string := ("B" ++ to_string d)%string.
Lemma path_f i : path ("Fields/" ++ to_string i) = fpath i.
Proof.
  change ("Fields/" ++ to_string i)%string with ("Fields" ++ "/" ++ to_string i)%string. rewrite path_app, (path_one (to_string i)); [reflexivity|apply to_string_spec|apply to_string_spec].
Qed.
Definition e_node (t : T) (xs ys zs : list T) (d : nat) : node T :=
  Dat [len xs; len ys; len zs] (map (fun p => comp d (fst (fld t (grid_point xs ys zs p)))) (grid (length xs) (length ys) (length zs))).
Definition b_node (t : T) (xs ys zs : list T) (d : nat) : node T :=
  Dat [len xs; len ys; len zs] (map (fun p => comp d (snd (fld t (grid_point xs ys zs p)))) (grid (length xs) (length ys) (length zs))).

Lemma out_dir_new (s : om T) g gp t xs ys zs d : path g = gp -> gp <> [] -> (Z.of_nat (length xs * length ys * length zs) <= 2 ^ 32)%Z ->
  lookup (f_tree (om_file s)) gp = Some Grp -> lookup (f_tree (om_file s)) (gp ++ [ename d]) = None -> lookup (f_tree (om_file s)) (gp ++ [bname d]) = None ->
  out_dir garbage fld s g t xs ys zs d = Ok (with_file s (mkFile ((gp ++ [bname d], b_node t xs ys zs d) :: (gp ++ [ename d], e_node t xs ys zs d) :: f_tree (om_file s)) (f_group (om_file s)))).
Proof.
  intros HP HNE HB HG HE HBn. unfold out_dir. cbv zeta. rewrite !grid_fill_all by auto. cbn [bind].
  assert (NS : forall a, no_slash a -> a <> ""%string -> path (g ++ "/" ++ a) = gp ++ [a]) by (intros a A1 A2; rewrite path_app, HP, path_one by auto; reflexivity).
  assert (PE : path (g ++ "/E" ++ to_string d) = gp ++ [ename d]).
  { change ("/E" ++ to_string d)%string with ("/" ++ ename d)%string. apply NS; [|discriminate]. apply no_slash_app; [intros c [<-|[]]; discriminate|apply to_string_spec]. }
  assert (PB : path (g ++ "/B" ++ to_string d) = gp ++ [bname d]).
  { change ("/B" ++ to_string d)%string with ("/" ++ bname d)%string. apply NS; [|discriminate]. apply no_slash_app; [intros c [<-|[]]; discriminate|apply to_string_spec]. }
  assert (EX : forall (u : tree T) x, lookup u (gp ++ [x]) = None -> exists_ u (gp ++ [x]) = false).
  { intros u x HX. destruct (gp ++ [x]) eqn:EA; [apply app_eq_nil in EA; destruct EA; discriminate|]. cbn [exists_]. rewrite HX. reflexivity. }
  assert (IG : forall (u : tree T) x, lookup u gp = Some Grp -> is_group u (removelast (gp ++ [x])) = true).
  { intros u x HX. rewrite removelast_last. destruct gp; [contradiction|]. cbn [is_group]. rewrite HX. reflexivity. }
  rewrite o_array_new; rewrite ?PE; [|apply EX; auto|apply IG; auto|rewrite map_length, grid_length; unfold len; cbn [zprod]; nia].
  cbn [bind with_file om_file f_tree f_group].
  rewrite o_array_new; cbn [with_file om_file f_tree f_group]; rewrite ?PB.
  - reflexivity.
  - apply EX. rewrite lookup_cons. destruct (list_eq_dec string_dec _ _) as [E1|_]; [apply app_inv_head in E1; discriminate|auto].
  - apply IG. rewrite lookup_cons. destruct (list_eq_dec string_dec _ _) as [E1|_]; [|auto]. exfalso.
    apply (f_equal (@length _)) in E1. rewrite app_length in E1. cbn in E1. lia.
  - rewrite map_length, grid_length; unfold len; cbn [zprod]; nia.
Qed.

Lemma out_field_new ts xs ys zs : objinfo_inverted code -> (Z.of_nat (length xs * length ys * length zs) <= 2 ^ 32)%Z -> forall i (s : om T),
  f_group (om_file s) <> GFreed -> lookup (f_tree (om_file s)) ["Fields"%string] = Some Grp ->
  (forall j q, (i <= j)%nat -> lookup (f_tree (om_file s)) (fpath j ++ q) = None) ->
  exists s', out_field_from code garbage fld s i ts xs ys zs = Ok s' /\ ogrows s s' /\
    forall m t d, nth_error ts m = Some t -> (d < 3)%nat ->
      lookup (f_tree (om_file s')) (fpath (i + m) ++ [ename d]) = Some (e_node t xs ys zs d) /\
      lookup (f_tree (om_file s')) (fpath (i + m) ++ [bname d]) = Some (b_node t xs ys zs d).
Proof.
  intros HI HB. induction ts as [|t ts IH]; intros i s HG HP HN; cbn [out_field_from].
  - exists s. split; [auto|]. split; [apply ogrows_refl|]. intros m t d HM. destruct m; discriminate.
  - cbv zeta.
    assert (N0 : lookup (f_tree (om_file s)) (fpath i) = None) by (rewrite <- (app_nil_r (fpath i)); apply HN; lia).
    assert (FI : forall j q r, j <> i -> fpath j ++ q <> fpath i ++ r).
    { intros j q r NE HX. unfold fpath in HX. cbn in HX. injection HX; intros _ E2. apply to_string_inj in E2. auto. }
    rewrite o_group_new; auto.
    2:{ rewrite path_f. unfold fpath in *. cbn [exists_]. rewrite N0. reflexivity. }
    2:{ rewrite path_f. unfold fpath. cbn [removelast is_group]. rewrite HP. reflexivity. }
    cbn [bind]. rewrite path_f.
    assert (NM : forall x y : string, x <> y -> fpath i ++ [x] <> fpath i ++ [y]) by (intros x y NE HX; apply app_inv_head in HX; congruence).
    assert (NG : forall x, fpath i <> fpath i ++ [x]) by (intros x HX; apply (f_equal (@length _)) in HX; rewrite app_length in HX; cbn in HX; lia).
    assert (NG' : forall x, fpath i ++ [x] <> fpath i) by (intros x HX; symmetry in HX; eapply NG; eauto).
    assert (NEB : forall a b, ename a <> bname b) by (intros a b HX; discriminate).
    assert (NEE : forall a b, a <> b -> ename a <> ename b) by (intros a b NE HX; unfold ename in HX; apply append_cancel in HX; apply to_string_inj in HX; auto).
    assert (NBB : forall a b, a <> b -> bname a <> bname b) by (intros a b NE HX; unfold bname in HX; apply append_cancel in HX; apply to_string_inj in HX; auto).
    assert (NBE : forall a b, bname a <> ename b) by (intros a b HX; discriminate).
    set (l0 := f_tree (om_file s)) in *.
    assert (K : forall x, lookup l0 (fpath i ++ [x]) = None) by (intros x; apply HN; lia).
    Ltac lk := rewrite ?lookup_cons; repeat (destruct (list_eq_dec string_dec _ _) as [?EQ|?NQ]; try congruence).
    assert (LL : forall x n (u : tree T) p, p <> x -> lookup ((x, n) :: u) p = lookup u p).
    { intros x n u p NE. rewrite lookup_cons. destruct (list_eq_dec string_dec _ _); [contradiction|auto]. }
    assert (LS : forall x n (u : tree T), lookup ((x, n) :: u) x = Some n).
    { intros x n u. rewrite lookup_cons. destruct (list_eq_dec string_dec _ _); [auto|contradiction]. }
    Ltac side NM NG NG' NEB NEE NBB NBE := first [apply NG | apply NG' | apply NM; first [apply NEB | apply NBE | apply NEE; discriminate | apply NBB; discriminate]].
    rewrite (out_dir_new _ _ (fpath i)); [|apply path_f|discriminate|auto| | |]; cbn [with_file om_file f_tree];
      [|rewrite LS; auto|rewrite LL by side NM NG NG' NEB NEE NBB NBE; apply K|rewrite LL by side NM NG NG' NEB NEE NBB NBE; apply K].
    cbn [bind with_file om_file f_tree f_group].
    rewrite (out_dir_new _ _ (fpath i)); [|apply path_f|discriminate|auto| | |]; cbn [with_file om_file f_tree];
      [|rewrite !LL by side NM NG NG' NEB NEE NBB NBE; rewrite LS; auto|rewrite !LL by side NM NG NG' NEB NEE NBB NBE; apply K|rewrite !LL by side NM NG NG' NEB NEE NBB NBE; apply K].
    cbn [bind with_file om_file f_tree f_group].
    rewrite (out_dir_new _ _ (fpath i)); [|apply path_f|discriminate|auto| | |]; cbn [with_file om_file f_tree];
      [|rewrite !LL by side NM NG NG' NEB NEE NBB NBE; rewrite LS; auto|rewrite !LL by side NM NG NG' NEB NEE NBB NBE; apply K|rewrite !LL by side NM NG NG' NEB NEE NBB NBE; apply K].
    cbn [bind with_file om_file f_tree f_group]. set (s2 := with_file _ _).
    destruct (IH (S i) s2) as (s' & E' & G' & L').
    + discriminate.
    + cbn [s2 with_file om_file f_tree]. rewrite !LL by discriminate. exact HP.
    + intros j q HJ. cbn [s2 with_file om_file f_tree]. rewrite !LL; try (apply FI; lia). apply HN; lia.
    + exists s'. split; [exact E'|].
      assert (G2 : ogrows s s2).
      { split; [|reflexivity]. intros p n0 HL. fold l0 in HL. cbn [s2 with_file om_file f_tree].
        assert (NQ : forall q, p <> fpath i ++ q) by (intros q ->; rewrite HN in HL by lia; discriminate).
        rewrite !LL; try apply NQ. auto. }
      split; [eapply ogrows_trans; eauto|].
      intros m t' d HM HD. destruct m as [|m]; cbn [nth_error] in HM.
      * injection HM; intros <-. rewrite Nat.add_0_r. split; apply G'; cbn [s2 with_file om_file f_tree].
        -- destruct d as [|[|[|d]]]; [| | |lia]; repeat (rewrite LL by side NM NG NG' NEB NEE NBB NBE); apply LS.
        -- destruct d as [|[|[|d]]]; [| | |lia]; repeat (rewrite LL by side NM NG NG' NEB NEE NBB NBE); apply LS.
      * replace (i + S m)%nat with (S i + m)%nat by lia. apply L'; auto.
Qed.

End OutFile.
