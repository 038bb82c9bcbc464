(** * What input-check.txt says about the parameters (C122) *)
From Coq Require Import String Ascii ZArith Lia Bool List DecimalString.
From Verif Require Import Num Outcome OutcomeFacts Vec Units Output OutFacts Text Ini IniReader FileParser CheckFile PropsFile.
Import ListNotations.
Local Open Scope string_scope.
Local Open Scope list_scope.

(** ** Specification *)
(** Parameters with other numbers. *)
Section Map.
Context {T U : Type} (f : T -> U).
Definition vmap3 (v : vec T) : vec U := mkV (f (vx v)) (f (vy v)) (f (vz v)).
Definition map_general (g : general T) : general U := mkGeneral (g_units g) (f (g_timeStep g)) (f (g_timeEnd g)) (g_fileName g) (g_tracking g).
Definition map_field (x : field T) : field U :=
  match x with
  | NoField => NoField
  | StaticField e b => StaticField (vmap3 e) (vmap3 b)
  | PlaneField a w p d => PlaneField (f a) (f w) (f p) (vmap3 d)
  | GaussianField a w d s p x y => GaussianField (f a) (f w) (f d) (f s) (f p) (vmap3 x) (vmap3 y)
  | FocusingField a w d s p x y => FocusingField (f a) (f w) (f d) (f s) (f p) (vmap3 x) (vmap3 y)
  end.
Definition map_particle (p : particle T) : particle U :=
  mkParticle (p_number p) (p_name p) (p_type p) (p_distro p) (vmap3 (p_position p)) (vmap3 (p_direction p)) (f (p_energy1 p)) (f (p_energy2 p))
    (f (p_radius p)) (f (p_divergence p)) (f (p_duration p)) (p_output p).
Definition map_physics (y : physics T) : physics U := mkPhysics (y_physics y) (f (y_minEnergy y)) (f (y_fraction y)) (y_pair y).
Definition map_histogram (h : histogram T) : histogram U :=
  mkHistogram (h_name h) (h_particle h) (h_type h) (f (h_time h)) (h_bins h) (f (h_minBin h)) (f (h_maxBin h)).
Definition map_parameters (p : parameters T) : parameters U :=
  mkParams (map_general (in_general p)) (map_field (in_field p)) (map_physics (in_physics p)) (map map_particle (in_particles p)) (map map_histogram (in_histograms p)).
End Map.

(** What is left out: the amplitude of a plane wave, the polarisation of the focused beams, the energy distribution of a source, the type of a histogram. *)
Definition hide_field {U} (x : U) (f : field U) : field U :=
  match f with
  | PlaneField a w p d => PlaneField x w p d
  | GaussianField a w d s p y z => GaussianField a w d s x y z
  | FocusingField a w d s p y z => FocusingField a w d s x y z
  | _ => f
  end.
Definition hide_particle {U} (p : particle U) : particle U :=
  mkParticle (p_number p) (p_name p) (p_type p) "" (p_position p) (p_direction p) (p_energy1 p) (p_energy2 p) (p_radius p) (p_divergence p) (p_duration p) (p_output p).
Definition hide_histogram {U} (h : histogram U) : histogram U :=
  mkHistogram (h_name h) (h_particle h) "" (h_time h) (h_bins h) (h_minBin h) (h_maxBin h).
Definition hide {U} (x : U) (p : parameters U) : parameters U :=
  mkParams (in_general p) (hide_field x (in_field p)) (in_physics p) (map hide_particle (in_particles p)) (map hide_histogram (in_histograms p)).
(** the numbers as they are written, without what is left out *)
Definition visible {T} (show : T -> text) (p : parameters T) : parameters text := hide [] (map_parameters show p).

(** texts on one line *)
Definition on_line (t : text) : Prop := ~ In newline t.
Definition no_blank (t : text) : Prop := ~ In " "%char t.
(** the names in the parameters have no line breaks (values continued on a second line have) *)
Definition plain_names {T} (p : parameters T) : Prop :=
  on_line (tx (g_fileName (in_general p))) /\ on_line (tx (g_units (in_general p))) /\ on_line (tx (y_physics (in_physics p))) /\
  Forall (fun q => on_line (tx (p_name q)) /\ on_line (tx (p_type q))) (in_particles p) /\
  Forall (fun h => on_line (tx (h_name h)) /\ on_line (tx (h_particle h))) (in_histograms p).

(** ** The parameters do not depend on the check file *)
Lemma snd_wbind {A B} (x : writes A) (f : A -> writes B) : snd (wbind x f) = bind (snd x) (fun a => snd (f a)).
Proof. destruct x as [t [a|c| |w|]]; reflexivity. Qed.

Lemma fst_ok {A B} (x : writes A) (f : A -> writes B) a : snd x = Ok a -> fst (wbind x f) = fst x ++ fst (f a).
Proof. destruct x as [t y]. cbn. intros ->. reflexivity. Qed.

Section Facts.
Context {T : Type} `{Num T}.
Variable special : text -> T.
Variable show : T -> text.
Variables check opened : bool.

Lemma snd_numbered {A} (one : string -> res A) so r prefix fuel i :
  snd (read_numbered_w check opened r one so prefix fuel i) = read_numbered r one prefix fuel i.
Proof.
  revert i. induction fuel as [|f IH]; intros i; [reflexivity|]. cbn [read_numbered_w read_numbered].
  destruct (has_section r (prefix ++ to_string i)%string); [|reflexivity].
  rewrite snd_wbind. cbn [wret snd]. destruct (one (prefix ++ to_string i)%string); cbn [bind]; try reflexivity.
  rewrite snd_wbind. cbn [put snd bind]. rewrite snd_wbind, IH. reflexivity.
Qed.

Lemma snd_all r : snd (read_all_w special show check opened r) = read_all special r.
Proof.
  unfold read_all_w, read_all. rewrite snd_wbind. cbn [wret snd]. destruct (check_vitals r); cbn [bind]; try reflexivity.
  unfold read_general_w. rewrite snd_wbind, snd_wbind. cbn [wret snd]. destruct (read_general special r) as [ug|c| |w|]; cbn [bind]; try reflexivity.
  rewrite snd_wbind. cbn [put snd bind wret]. unfold read_field_w. rewrite snd_wbind, snd_wbind. cbn [wret snd].
  destruct (read_field special r (fst ug)) as [f|c| |w|]; cbn [bind]; try reflexivity.
  rewrite snd_wbind. cbn [put snd bind wret]. rewrite snd_wbind, snd_numbered.
  destruct (read_numbered r (read_particle special r (fst ug)) "Particle" (S (length (r_sections r))) 1) as [ps|c| |w|]; cbn [bind]; try reflexivity.
  unfold read_physics_w. rewrite snd_wbind, snd_wbind. cbn [put snd bind wret]. rewrite snd_wbind, snd_numbered.
  destruct (read_numbered r (read_histogram special r (fst ug)) "Histogram" (S (length (r_sections r))) 1); reflexivity.
Qed.
End Facts.

Theorem C122_no_influence : forall (T : Type) (N : Num T) (special : text -> T) (show : T -> text) (check opened : bool) (p : path),
  snd (file_parser_w special show check opened p) = file_parser special p /\
  ((check && opened)%bool = false -> fst (file_parser_w special show check opened p) = []).
Proof.
  intros T N special show check opened p. split.
  - unfold file_parser_w, file_parser. rewrite snd_wbind. cbn [wret snd]. destruct (new_reader p) as [x|c| |w|]; cbn [bind]; try reflexivity. apply snd_all.
  - intros CO.
    assert (W : forall A B (x : writes A) (f : A -> writes B), fst x = [] -> (forall a, fst (f a) = []) -> fst (wbind x f) = []).
    { intros A B [t [a|c| |w|]] f E1 E2; cbn in *; subst; cbn; auto. }
    assert (P : forall t, fst (put check opened t) = []) by (intros; unfold put; rewrite CO; reflexivity).
    assert (NB : forall A (one : string -> res A) so r prefix fuel i, fst (read_numbered_w check opened r one so prefix fuel i) = []).
    { intros A one so r prefix fuel. induction fuel as [|f IH]; intros i; [reflexivity|]. cbn [read_numbered_w].
      destruct (has_section r (prefix ++ to_string i)%string); [|reflexivity]. repeat first [reflexivity|apply P|apply IH|apply W; intros]. }
    unfold file_parser_w, read_all_w, read_general_w, read_field_w, read_physics_w. repeat first [reflexivity|apply P|apply NB|apply W; intros].
Qed.

(** ** Lines *)
Definition unlines (ls : list text) : text := flat_map (fun l => l ++ nl) ls.
Lemma unlines_app a b : unlines (a ++ b) = unlines a ++ unlines b. Proof. apply flat_map_app. Qed.

Lemma line_split (a b x y : text) : on_line a -> on_line b -> a ++ nl ++ x = b ++ nl ++ y -> a = b /\ x = y.
Proof.
  revert b. induction a as [|c a IH]; intros [|d b] A B E; cbn in E.
  - injection E as ->. auto.
  - injection E as <- _. exfalso. apply B. now left.
  - injection E as -> _. exfalso. apply A. now left.
  - injection E as -> E. destruct (IH b) as [-> ->]; auto; [intros I; apply A; now right|intros I; apply B; now right].
Qed.
Lemma unlines_inj a : forall b, Forall on_line a -> Forall on_line b -> unlines a = unlines b -> a = b.
Proof.
  induction a as [|x a IH]; intros [|y b] A B E; try reflexivity.
  - exfalso. cbn in E. destruct y; discriminate.
  - exfalso. cbn in E. destruct x; discriminate.
  - inversion A; inversion B; subst. cbn in E. rewrite <- !app_assoc in E. apply line_split in E; auto. destruct E as [-> E]. f_equal. auto.
Qed.

(** the lines of each block, the numbers already written *)
Definition vl (v : vec text) : text := put_v (fun x => x) v.
Definition general_lines (g : general text) : list text :=
  [tx "General input parameters "; tx "Units       = " ++ tx (g_units g); tx "Time step   = " ++ g_timeStep g; tx "Time end    = " ++ g_timeEnd g;
   tx "Output file = " ++ tx (g_fileName g); tx "Tracking    = " ++ put_b (g_tracking g); []; []].
Definition laser_lines (ty : string) (a w d s : text) (x y : vec text) : list text :=
  [tx "Field input parameters "; tx "Field type  = " ++ tx ty; tx "Max E       = " ++ a; tx "Duration    = " ++ d; tx "Waist       = " ++ s; tx "Wavelength  = " ++ w;
   tx "Start       = " ++ vl x; tx "Focus       = " ++ vl y; []; []].
Definition field_lines (f : field text) : list text :=
  match f with
  | NoField => []
  | StaticField e b => [tx "Field input parameters "; tx "Field type = " ++ tx "static"; tx "E strength = " ++ vl e; tx "B strength = " ++ vl b; []; []]
  | PlaneField a w p d => [tx "Field input parameters "; tx "Field type  = " ++ tx "plane"; tx "Wavelength  = " ++ w; tx "Direction   = " ++ vl d; tx "Polerisation = " ++ p; []; []]
  | GaussianField a w d s p x y => laser_lines "gaussian" a w d s x y
  | FocusingField a w d s p x y => laser_lines "focusing" a w d s x y
  end.
Definition physics_lines (y : physics text) : list text :=
  [tx "Physics parameters "; tx "Physics module used   = " ++ tx (y_physics y); tx "Pair production       = " ++ put_b (y_pair y);
   tx "Sample fraction       = " ++ y_fraction y; tx "Minimum photon energy = " ++ y_minEnergy y; []; []].
Definition particle_lines (i : nat) (p : particle text) : list text :=
  [tx "Particle " ++ tx (to_string i); tx "Name       = " ++ tx (p_name p); tx "Number     = " ++ put_u (p_number p); tx "Type       = " ++ tx (p_type p);
   tx "Energy1    = " ++ p_energy1 p; tx "Energy2    = " ++ p_energy2 p; tx "Radius     = " ++ p_radius p; tx "Divergence     = " ++ p_divergence p;
   tx "Duration   = " ++ p_duration p; tx "Output     = " ++ put_b (p_output p); tx "Direction  = " ++ vl (p_direction p); tx "Position   = " ++ vl (p_position p); []; []].
Definition histogram_lines (i : nat) (h : histogram text) : list text :=
  [tx "Histogram " ++ tx (to_string i); tx "Name     = " ++ tx (h_name h); tx "Particle = " ++ tx (h_particle h); tx "Time     = " ++ h_time h; tx "Bins     = " ++ put_u (h_bins h);
   tx "Min Bin  = " ++ h_minBin h; tx "Max Bin  = " ++ h_maxBin h; []; []].
Fixpoint numbered {A} (f : nat -> A -> list text) (i : nat) (l : list A) : list text :=
  match l with [] => [] | a :: r => f i a ++ numbered f (S i) r end.
Definition report (p : parameters text) : list text :=
  general_lines (in_general p) ++ field_lines (in_field p) ++ numbered particle_lines 1 (in_particles p) ++ physics_lines (in_physics p) ++
  numbered histogram_lines 1 (in_histograms p).

Ltac lines := unfold unlines; cbn [flat_map app]; rewrite ?app_nil_r, <- ?app_assoc; reflexivity.
Section Written.
Context {T : Type} `{Num T}.
Variable special : text -> T.
Variable show : T -> text.

Lemma general_written g : put_general show g = unlines (general_lines (map_general show g)).
Proof. unfold put_general, general_lines, put_s, nl. lines. Qed.
Lemma field_written f : put_field show f = unlines (field_lines (hide_field [] (map_field show f))).
Proof. destruct f; unfold put_field, put_laser, field_lines, laser_lines, hide_field, map_field, put_s, nl, vl, put_v; lines. Qed.
Lemma physics_written y : put_physics show y = unlines (physics_lines (map_physics show y)).
Proof. unfold put_physics, physics_lines, put_s, nl. lines. Qed.
Lemma particle_written i p : put_particle show i p = unlines (particle_lines i (hide_particle (map_particle show p))).
Proof. unfold put_particle, particle_lines, put_s, nl, vl, put_v. lines. Qed.
Lemma histogram_written i h : put_histogram show i h = unlines (histogram_lines i (hide_histogram (map_histogram show h))).
Proof. unfold put_histogram, histogram_lines, put_s, nl. lines. Qed.

Lemma numbered_written {A B} (one : string -> res A) so (ln : nat -> B -> list text) (g : A -> B) r prefix : (forall i a, so i a = unlines (ln i (g a))) ->
  forall fuel i l, read_numbered r one prefix fuel i = Ok l -> fst (read_numbered_w true true r one so prefix fuel i) = unlines (numbered ln i (map g l)).
Proof.
  intros E fuel. induction fuel as [|f IH]; intros i l HL; [discriminate|]. cbn [read_numbered read_numbered_w] in *.
  destruct (has_section r (prefix ++ to_string i)%string); [|injection HL as <-; reflexivity].
  unfold wbind at 1. cbn [wret fst snd]. destruct (one (prefix ++ to_string i)%string) as [a|c| |w|]; try discriminate. cbn [bind] in HL.
  destruct (read_numbered r one prefix f (S i)) as [l'|c| |w|] eqn:ER; try discriminate. injection HL as <-.
  cbn [app]. unfold wbind at 1. cbn [put fst snd andb]. unfold wbind. rewrite snd_numbered, ER. cbn [fst snd wret map numbered]. rewrite app_nil_r, unlines_app, E, (IH _ _ ER). reflexivity.
Qed.

Lemma all_written r p : read_all special r = Ok p -> fst (read_all_w special show true true r) = unlines (report (visible show p)).
Proof.
  intros E. unfold read_all in E. destruct (check_vitals r) as [u|c| |w|] eqn:E0; try discriminate. cbn [bind] in E.
  destruct (read_general special r) as [ug|c| |w|] eqn:E1; try discriminate. cbn [bind] in E.
  destruct (read_field special r (fst ug)) as [f|c| |w|] eqn:E2; try discriminate. cbn [bind] in E.
  destruct (read_numbered r (read_particle special r (fst ug)) "Particle" _ 1) as [ps|c| |w|] eqn:E3; try discriminate. cbn [bind] in E.
  destruct (read_numbered r (read_histogram special r (fst ug)) "Histogram" _ 1) as [hs|c| |w|] eqn:E4; try discriminate. injection E as <-.
  assert (G : read_general_w special show true true r = (put_general show (snd ug), Ok ug)).
  { unfold read_general_w. rewrite E1. unfold wbind, wret, put. cbn [fst snd andb app]. rewrite app_nil_r. reflexivity. }
  assert (F : read_field_w special show true true r (fst ug) = (put_field show f, Ok f)).
  { unfold read_field_w. rewrite E2. unfold wbind, wret, put. cbn [fst snd andb app]. rewrite app_nil_r. reflexivity. }
  assert (Y : read_physics_w special show true true r (fst ug) = (put_physics show (read_physics special r (fst ug)), Ok (read_physics special r (fst ug)))).
  { unfold read_physics_w, wbind, wret, put. cbn [fst snd andb]. rewrite app_nil_r. reflexivity. }
  unfold read_all_w. rewrite (fst_ok (wret (check_vitals r)) _ u) by exact E0. cbn [wret fst app].
  rewrite (fst_ok _ _ ug) by (rewrite G; reflexivity). rewrite G. cbn [fst].
  rewrite (fst_ok _ _ f) by (rewrite F; reflexivity). rewrite F. cbn [fst].
  rewrite (fst_ok _ _ ps) by (rewrite snd_numbered; exact E3).
  rewrite (fst_ok _ _ (read_physics special r (fst ug))) by (rewrite Y; reflexivity). rewrite Y. cbn [fst].
  rewrite (fst_ok _ _ hs) by (rewrite snd_numbered; exact E4). cbn [wret fst]. rewrite app_nil_r.
  rewrite (numbered_written _ _ particle_lines _ r _ particle_written _ _ _ E3), (numbered_written _ _ histogram_lines _ r _ histogram_written _ _ _ E4).
  rewrite general_written, field_written, physics_written. unfold report, visible, hide, map_parameters. cbn [in_general in_field in_physics in_particles in_histograms].
  rewrite !unlines_app, !map_map. reflexivity.
Qed.
End Written.

(** the contents of the file after a successful run of the constructor: the blocks in this order, one line per item *)
Theorem C122_contents : forall (T : Type) (N : Num T) (special : text -> T) (show : T -> text) (p : path) ps,
  file_parser special p = Ok ps -> fst (file_parser_w special show true true p) = unlines (report (visible show ps)).
Proof.
  intros T N special show p ps E. unfold file_parser in E. unfold file_parser_w, wbind. cbn [wret fst snd].
  destruct (new_reader p) as [x|c| |w|]; try discriminate. cbn [fst app]. apply all_written, E.
Qed.

(** ** Reading it back *)
Lemma app_len {A} (a b x y : list A) : length a = length b -> a ++ x = b ++ y -> a = b /\ x = y.
Proof. revert b. induction a; intros [|c b] L E; try discriminate; [auto|]. injection E as -> E. injection L as L. destruct (IHa _ L E) as [-> ->]. auto. Qed.
Lemma tx_inj a b : tx a = tx b -> a = b.
Proof. intros E. rewrite <- (string_of_list_ascii_of_string a), <- (string_of_list_ascii_of_string b). unfold tx in E. now rewrite E. Qed.
Lemma put_b_inj a b : put_b a = put_b b -> a = b. Proof. destruct a, b; (reflexivity || discriminate). Qed.
Lemma put_u_inj a b : (0 <= a)%Z -> (0 <= b)%Z -> put_u a = put_u b -> a = b.
Proof. intros A B E. apply tx_inj, to_string_inj in E. apply Z2Nat.inj in E; auto. Qed.
Lemma word_split (a b x y : text) : no_blank a -> no_blank b -> a ++ tx " " ++ x = b ++ tx " " ++ y -> a = b /\ x = y.
Proof.
  revert b. induction a as [|c a IH]; intros [|d b] A B E; cbn in E.
  - injection E as ->. auto.
  - injection E as <- _. exfalso. apply B. now left.
  - injection E as -> _. exfalso. apply A. now left.
  - injection E as -> E. destruct (IH b) as [-> ->]; auto; [intros I; apply A; now right|intros I; apply B; now right].
Qed.
Definition vwords (v : vec text) := no_blank (vx v) /\ no_blank (vy v) /\ no_blank (vz v).
Lemma vl_inj v w : vwords v -> vwords w -> vl v = vl w -> v = w.
Proof.
  intros (A & B & C) (D & F & G) E. destruct v as [a b c], w as [d f g]. unfold vl, put_v in E. cbn [vx vy vz] in *.
  apply app_inv_head in E. apply word_split in E; auto. destruct E as [-> E]. apply word_split in E; auto. destruct E as [-> E].
  apply app_inv_tail in E. subst. reflexivity.
Qed.
Definition vall (P : text -> Prop) (v : vec text) := P (vx v) /\ P (vy v) /\ P (vz v).

(** what the numbers and names have to satisfy *)
Definition good (t : text) : Prop := on_line t /\ no_blank t.
Definition good_v := vall good.
Definition good_field (f : field text) : Prop :=
  match f with
  | NoField => True
  | StaticField e b => good_v e /\ good_v b
  | PlaneField a w p d => good a /\ good w /\ good p /\ good_v d
  | GaussianField a w d s p x y | FocusingField a w d s p x y => good a /\ good w /\ good d /\ good s /\ good p /\ good_v x /\ good_v y
  end.
Definition good_particle (p : particle text) : Prop :=
  (0 <= p_number p)%Z /\ on_line (tx (p_name p)) /\ on_line (tx (p_type p)) /\ good_v (p_position p) /\ good_v (p_direction p) /\
  good (p_energy1 p) /\ good (p_energy2 p) /\ good (p_radius p) /\ good (p_divergence p) /\ good (p_duration p).
Definition good_histogram (h : histogram text) : Prop :=
  (0 <= h_bins h)%Z /\ on_line (tx (h_name h)) /\ on_line (tx (h_particle h)) /\ good (h_time h) /\ good (h_minBin h) /\ good (h_maxBin h).
Definition good_parameters (p : parameters text) : Prop :=
  (on_line (tx (g_units (in_general p))) /\ on_line (tx (g_fileName (in_general p))) /\ good (g_timeStep (in_general p)) /\ good (g_timeEnd (in_general p))) /\
  good_field (in_field p) /\ (on_line (tx (y_physics (in_physics p))) /\ good (y_fraction (in_physics p)) /\ good (y_minEnergy (in_physics p))) /\
  Forall good_particle (in_particles p) /\ Forall good_histogram (in_histograms p).

Lemma good_words v : good_v v -> vwords v. Proof. unfold good_v, vall, good, vwords. tauto. Qed.
Lemma on_app a b : on_line a -> on_line b -> on_line (a ++ b). Proof. unfold on_line. rewrite in_app_iff. tauto. Qed.
Ltac lit := let I := fresh in intros I; cbn in I; repeat (destruct I as [I|I]; [discriminate I|]); exact I.
Lemma vl_line v : good_v v -> on_line (vl v).
Proof.
  intros ((A & _) & (B & _) & (C & _)). unfold vl, put_v. repeat apply on_app; auto; lit.
Qed.
Lemma digits_uint d : on_line (tx (NilEmpty.string_of_uint d)).
Proof. induction d as [|d IH|d IH|d IH|d IH|d IH|d IH|d IH|d IH|d IH|d IH]; intros HC; cbn in HC; [contradiction|..]; (destruct HC as [HC|HC]; [discriminate|exact (IH HC)]). Qed.
Lemma digits_line n : on_line (tx (to_string n)).
Proof. unfold to_string, NilZero.string_of_uint. destruct (Nat.to_uint n); try apply digits_uint. lit. Qed.

Lemma on_nil : on_line []. Proof. intros []. Qed.
Lemma b_line b : on_line (put_b b). Proof. destruct b; lit. Qed.
Ltac onl := repeat first [apply Forall_nil|apply Forall_cons|apply on_nil|apply b_line|apply digits_line|apply vl_line; assumption|assumption|apply on_app|lit].
Lemma numbered_line {A} (f : nat -> A -> list text) (P : A -> Prop) : (forall i a, P a -> Forall on_line (f i a)) -> forall l i, Forall P l -> Forall on_line (numbered f i l).
Proof. intros HF l. induction l; intros i FP; cbn; [constructor|]. inversion FP; subst. apply Forall_app. auto. Qed.
Lemma report_line p : good_parameters p -> Forall on_line (report p).
Proof.
  intros ((G1 & G2 & (G3 & _) & (G4 & _)) & GF & (Y1 & (Y2 & _) & (Y3 & _)) & GP & GH). unfold report. rewrite !Forall_app. refine (conj _ (conj _ (conj _ (conj _ _)))).
  - unfold general_lines. onl.
  - destruct (in_field p) as [|e b|a w po d|a w d s po x y|a w d s po x y]; cbn in GF; unfold field_lines, laser_lines.
    + constructor.
    + destruct GF. onl.
    + destruct GF as ((A & _) & (B & _) & (C & _) & D). onl.
    + destruct GF as ((A & _) & (B & _) & (C & _) & (D & _) & _ & X & Y). onl.
    + destruct GF as ((A & _) & (B & _) & (C & _) & (D & _) & _ & X & Y). onl.
  - apply numbered_line with (P := good_particle); auto. intros i q (_ & N1 & N2 & V1 & V2 & (A & _) & (B & _) & (C & _) & (D & _) & (E & _)). unfold particle_lines, put_u. onl.
  - unfold physics_lines. onl.
  - apply numbered_line with (P := good_histogram); auto. intros i h (_ & N1 & N2 & (A & _) & (B & _) & (C & _)). unfold histogram_lines, put_u. onl.
Qed.

Ltac heads := repeat match goal with H : tx ?l ++ _ = tx ?l ++ _ |- _ => apply app_inv_head in H | H : [] = [] |- _ => clear H end.
Lemma general_inj g h : general_lines g = general_lines h -> g = h.
Proof.
  destruct g as [u a b f t], h as [u' a' b' f' t']. unfold general_lines. cbn [g_units g_timeStep g_timeEnd g_fileName g_tracking].
  generalize (tx "Units       = ") (tx "Time step   = ") (tx "Time end    = ") (tx "Output file = ") (tx "Tracking    = "). intros l1 l2 l3 l4 l5 E.
  injection E as E1 E2 E3 E4 E5. apply app_inv_head in E1, E2, E3, E4, E5. apply tx_inj in E1, E4. apply put_b_inj in E5. congruence.
Qed.
Lemma physics_inj g h : physics_lines g = physics_lines h -> g = h.
Proof.
  destruct g as [u a b f], h as [u' a' b' f']. unfold physics_lines. cbn [y_physics y_minEnergy y_fraction y_pair].
  generalize (tx "Physics module used   = ") (tx "Pair production       = ") (tx "Sample fraction       = ") (tx "Minimum photon energy = "). intros l1 l2 l3 l4 E.
  injection E as E1 E2 E3 E4. apply app_inv_head in E1, E2, E3, E4. apply tx_inj in E1. apply put_b_inj in E2. congruence.
Qed.
Lemma laser_inj ty ty' a w d s x y a' w' d' s' x' y' : good_v x -> good_v y -> good_v x' -> good_v y' ->
  laser_lines ty a w d s x y = laser_lines ty' a' w' d' s' x' y' -> (ty, a, w, d, s, x, y) = (ty', a', w', d', s', x', y').
Proof.
  intros G1 G2 G3 G4. unfold laser_lines.
  generalize (tx "Field type  = ") (tx "Max E       = ") (tx "Duration    = ") (tx "Waist       = ") (tx "Wavelength  = ") (tx "Start       = ") (tx "Focus       = ").
  intros l1 l2 l3 l4 l5 l6 l7 E. injection E as E1 E2 E3 E4 E5 E6 E7. apply app_inv_head in E1, E2, E3, E4, E5, E6, E7.
  apply tx_inj in E1. apply vl_inj in E6; try (apply good_words; assumption). apply vl_inj in E7; try (apply good_words; assumption). congruence.
Qed.
Lemma particle_inj i p q : good_particle p -> good_particle q -> particle_lines i p = particle_lines i q -> hide_particle p = hide_particle q.
Proof.
  intros (N1 & _ & _ & V1 & V2 & _) (N2 & _ & _ & V3' & V4 & _). destruct p as [n nm ty di po dr e1 e2 ra dv du ou], q as [n' nm' ty' di' po' dr' e1' e2' ra' dv' du' ou'].
  unfold particle_lines, hide_particle. cbn [p_number p_name p_type p_distro p_position p_direction p_energy1 p_energy2 p_radius p_divergence p_duration p_output] in *.
  generalize (tx "Particle ") (tx "Name       = ") (tx "Number     = ") (tx "Type       = ") (tx "Energy1    = ") (tx "Energy2    = ") (tx "Radius     = ") (tx "Divergence     = ")
    (tx "Duration   = ") (tx "Output     = ") (tx "Direction  = ") (tx "Position   = ").
  intros l0 l1 l2 l3 l4 l5 l6 l7 l8 l9 l10 l11 E. injection E as E1 E2 E3 E4 E5 E6 E7 E8 E9 E10 E11.
  apply app_inv_head in E1, E2, E3, E4, E5, E6, E7, E8, E9, E10, E11. apply tx_inj in E1, E3. apply put_u_inj in E2; auto. apply put_b_inj in E9.
  apply vl_inj in E10; try (apply good_words; assumption). apply vl_inj in E11; try (apply good_words; assumption). congruence.
Qed.
Lemma histogram_inj i p q : good_histogram p -> good_histogram q -> histogram_lines i p = histogram_lines i q -> hide_histogram p = hide_histogram q.
Proof.
  intros (N1 & _) (N2 & _). destruct p as [nm pa ty t b mi ma], q as [nm' pa' ty' t' b' mi' ma']. unfold histogram_lines, hide_histogram.
  cbn [h_name h_particle h_type h_time h_bins h_minBin h_maxBin] in *.
  generalize (tx "Histogram ") (tx "Name     = ") (tx "Particle = ") (tx "Time     = ") (tx "Bins     = ") (tx "Min Bin  = ") (tx "Max Bin  = ").
  intros l0 l1 l2 l3 l4 l5 l6 E. injection E as E1 E2 E3 E4 E5 E6. apply app_inv_head in E1, E2, E3, E4, E5, E6. apply tx_inj in E1, E2. apply put_u_inj in E4; auto. congruence.
Qed.

(** a list of blocks followed by something that does not begin like a block *)
Lemma blocks_inj {A} (f : nat -> A -> list text) (h : A -> A) (P : A -> Prop) (k : nat) (first : text) (z z' : list text) :
  (forall i a, length (f i a) = S k) -> (forall i a b, P a -> P b -> f i a = f i b -> h a = h b) ->
  (forall i a, exists x r, f i a = (first ++ x) :: r) ->
  (forall x r, z <> (first ++ x) :: r) -> (forall x r, z' <> (first ++ x) :: r) ->
  forall l l' i, Forall P l -> Forall P l' -> numbered f i l ++ z = numbered f i l' ++ z' -> map h l = map h l' /\ z = z'.
Proof.
  intros FL FI FF Z1 Z2 l. induction l as [|a l IH]; intros [|b l'] i PL PL' E; cbn [numbered app map] in *.
  - auto.
  - exfalso. destruct (FF i b) as (x & r & EB). rewrite EB in E. cbn in E. eapply Z1. exact E.
  - exfalso. destruct (FF i a) as (x & r & EB). rewrite EB in E. cbn in E. eapply Z2. symmetry. exact E.
  - inversion PL; inversion PL'; subst. rewrite <- !app_assoc in E. apply app_len in E; [|now rewrite !FL]. destruct E as [E1 E2].
    destruct (IH l' (S i)) as [-> ->]; auto. split; [|reflexivity]. f_equal. eapply FI; eauto.
Qed.

Lemma field_report_inj f f' z z' : good_field f -> good_field f' -> (forall x r, z <> (tx "Field" ++ x) :: r) -> (forall x r, z' <> (tx "Field" ++ x) :: r) ->
  field_lines f ++ z = field_lines f' ++ z' -> hide_field [] f = hide_field [] f' /\ z = z'.
Proof.
  intros G G' Z Z' E.
  assert (HD : forall g, g <> NoField -> exists x r, forall z, field_lines g ++ z = (tx "Field" ++ x) :: r ++ z).
  { intros g NG. destruct g; [contradiction|..]; exists (tx " input parameters "); eexists; intros; reflexivity. }
  assert (D1 : f = NoField <-> f' = NoField).
  { split; intros ->.
    - destruct f'; [reflexivity|..]; exfalso; match type of E with _ = field_lines ?g ++ _ => destruct (HD g ltac:(discriminate)) as (xx & rr & HX) end; rewrite HX in E; eapply Z; exact E.
    - destruct f; [reflexivity|..]; exfalso; match type of E with field_lines ?g ++ _ = _ => destruct (HD g ltac:(discriminate)) as (xx & rr & HX) end; rewrite HX in E; eapply Z'; symmetry; exact E. }
  destruct f as [|e b|a w p d|a w d s p x y|a w d s p x y], f' as [|e' b'|a' w' p' d'|a' w' d' s' p' x' y'|a' w' d' s' p' x' y'];
    try (exfalso; destruct D1 as [D1 D2]; first [discriminate (D1 eq_refl)|discriminate (D2 eq_refl)]);
    try (exfalso; apply (f_equal (fun l => nth_error l 1)) in E; cbn in E; discriminate E).
  - cbn in *. auto.
  - apply app_len in E; [|reflexivity]. destruct E as [E ->]. split; [|reflexivity]. cbn in G, G'. destruct G as [A B], G' as [A' B']. unfold field_lines in E. revert E.
    generalize (tx "E strength = ") (tx "B strength = ") (tx "Field type = " ++ tx "static"). intros l1 l2 l3 E. injection E as E1 E2. apply app_inv_head in E1, E2.
    apply vl_inj in E1; try (apply good_words; assumption). apply vl_inj in E2; try (apply good_words; assumption). congruence.
  - apply app_len in E; [|reflexivity]. destruct E as [E ->]. split; [|reflexivity]. cbn in G, G'. destruct G as (A & B & C & D), G' as (A' & B' & C' & D'). unfold field_lines in E. revert E.
    generalize (tx "Wavelength  = ") (tx "Direction   = ") (tx "Polerisation = ") (tx "Field type  = " ++ tx "plane"). intros l1 l2 l3 l4 E. injection E as E1 E2 E3. apply app_inv_head in E1, E2, E3.
    apply vl_inj in E2; try (apply good_words; assumption). cbn. congruence.
  - apply app_len in E; [|reflexivity]. destruct E as [E ->]. split; [|reflexivity]. cbn in G, G'. destruct G as (_ & _ & _ & _ & _ & X & Y), G' as (_ & _ & _ & _ & _ & X' & Y').
    apply laser_inj in E; auto. cbn. congruence.
  - apply app_len in E; [|reflexivity]. destruct E as [E ->]. split; [|reflexivity]. cbn in G, G'. destruct G as (_ & _ & _ & _ & _ & X & Y), G' as (_ & _ & _ & _ & _ & X' & Y').
    apply laser_inj in E; auto. cbn. congruence.
Qed.

Lemma report_inj p q : good_parameters p -> good_parameters q -> report p = report q -> hide [] p = hide [] q.
Proof.
  intros (_ & F1 & _ & P1 & H1) (_ & F2 & _ & P2 & H2) E. unfold report in E.
  apply app_len in E; [|reflexivity]. destruct E as [EG E]. apply general_inj in EG.
  assert (NF : forall l y r, numbered particle_lines 1 l ++ physics_lines y ++ r <> [] /\ forall x r', numbered particle_lines 1 l ++ physics_lines y ++ r <> (tx "Field" ++ x) :: r').
  { intros [|a l] y r; split; try intros x r'; cbn; discriminate. }
  apply field_report_inj in E; auto; [|apply NF|apply NF]. destruct E as [EF E].
  apply (blocks_inj particle_lines hide_particle good_particle 13 (tx "Particle ")) in E; auto.
  2: { intros i a b. apply particle_inj. }
  2: { intros i a. eexists _, _. reflexivity. }
  2: { intros x r. cbn. discriminate. }
  2: { intros x r. cbn. discriminate. }
  destruct E as [EP E]. apply app_len in E; [|reflexivity]. destruct E as [EY E]. apply physics_inj in EY.
  rewrite <- (app_nil_r (numbered histogram_lines 1 (in_histograms p))), <- (app_nil_r (numbered histogram_lines 1 (in_histograms q))) in E.
  apply (blocks_inj histogram_lines hide_histogram good_histogram 8 (tx "Histogram ")) in E; auto.
  2: { intros i a b. apply histogram_inj. }
  2: { intros i a. eexists _, _. reflexivity. }
  2: { intros x r. discriminate. }
  2: { intros x r. discriminate. }
  destruct E as [EH _]. unfold hide. f_equal; assumption.
Qed.

Lemma hide_hide {U} (x : U) p : hide x (hide x p) = hide x p.
Proof.
  unfold hide. cbn [in_general in_field in_physics in_particles in_histograms]. rewrite !map_map. f_equal. destruct (in_field p); reflexivity.
Qed.

(** counts read from a file are not negative *)
Lemma numbered_each {A} r (one : string -> res A) prefix (P : A -> Prop) : (forall s a, one s = Ok a -> P a) ->
  forall fuel i l, read_numbered r one prefix fuel i = Ok l -> Forall P l.
Proof.
  intros HP fuel. induction fuel as [|f IH]; intros i l E; [discriminate|]. cbn [read_numbered] in E.
  destruct (has_section r (prefix ++ to_string i)%string); [|injection E as <-; constructor].
  destruct (one (prefix ++ to_string i)%string) eqn:E1; try discriminate. cbn [bind] in E. destruct (read_numbered r one prefix f (S i)) eqn:E2; try discriminate. injection E as <-.
  constructor; eauto.
Qed.
Lemma counts {T} `{Num T} (special : text -> T) p ps : file_parser special p = Ok ps ->
  Forall (fun q => (0 <= p_number q)%Z) (in_particles ps) /\ Forall (fun h => (0 <= h_bins h)%Z) (in_histograms ps).
Proof.
  unfold file_parser. destruct (new_reader p) as [x|c| |w|]; try discriminate. cbn [bind]. unfold read_all. destruct (check_vitals (fst x)); try discriminate. cbn [bind].
  destruct (read_general special (fst x)) as [ug|c| |w|]; try discriminate. cbn [bind]. destruct (read_field special (fst x) (fst ug)); try discriminate. cbn [bind].
  destruct (read_numbered (fst x) (read_particle special (fst x) (fst ug)) "Particle" _ 1) eqn:E1; try discriminate. cbn [bind].
  destruct (read_numbered (fst x) (read_histogram special (fst x) (fst ug)) "Histogram" _ 1) eqn:E2; try discriminate. intros E. injection E as <-. cbn [in_particles in_histograms]. split.
  - eapply numbered_each; [|exact E1]. intros s q. unfold read_particle. destruct (vect (fst x) s "position"); try discriminate. cbn [bind]. destruct (vect (fst x) s "direction"); try discriminate.
    cbn [bind]. intros E. injection E as <-. cbn [p_number]. unfold u32; apply Z.mod_pos_bound; reflexivity.
  - eapply numbered_each; [|exact E2]. intros s q. unfold read_histogram. intros E. injection E as <-. cbn [h_bins]. unfold u32; apply Z.mod_pos_bound; reflexivity.
Qed.

(** ** The text tells the visible parameters, and nothing else *)
Theorem C122_tells : forall (T : Type) (N : Num T) (special : text -> T) (show : T -> text) (p1 p2 : path) ps1 ps2,
  file_parser special p1 = Ok ps1 -> file_parser special p2 = Ok ps2 -> plain_names ps1 -> plain_names ps2 ->
  (forall x, on_line (show x) /\ no_blank (show x)) ->
  (fst (file_parser_w special show true true p1) = fst (file_parser_w special show true true p2) <-> visible show ps1 = visible show ps2).
Proof.
  intros T N special show p1 p2 ps1 ps2 E1 E2 N1 N2 SH. rewrite (C122_contents _ _ _ _ _ _ E1), (C122_contents _ _ _ _ _ _ E2).
  assert (GD : forall p ps, file_parser special p = Ok ps -> plain_names ps -> good_parameters (visible show ps)).
  { intros p ps E (A & B & C & D & F). destruct (counts special p ps E) as [CP CH]. unfold visible, hide, map_parameters, good_parameters.
    cbn [in_general in_field in_physics in_particles in_histograms map_general map_physics g_units g_timeStep g_timeEnd g_fileName y_physics y_fraction y_minEnergy].
    split; [repeat split; auto; apply SH|]. split; [|split; [repeat split; auto; apply SH|split]].
    - destruct (in_field ps); cbn; repeat split; try apply SH; try apply on_nil; intros [].
    - rewrite map_map. apply Forall_map. rewrite Forall_forall in D, CP |- *. intros q I. destruct (D q I) as [D1 D2]. repeat split; try apply SH; auto. apply CP, I.
    - rewrite map_map. apply Forall_map. rewrite Forall_forall in F, CH |- *. intros q I. destruct (F q I) as [D1 D2]. repeat split; try apply SH; auto. apply CH, I. }
  split.
  - intros E. apply unlines_inj in E; try (apply report_line; eapply GD; eauto). apply report_inj in E; try (eapply GD; eauto). unfold visible in *. rewrite !hide_hide in E. exact E.
  - intros ->. reflexivity.
Qed.

(** A refused file: with unknown units nothing has been written, with an unknown type of field the general block. *)
Theorem C122_refused : forall (T : Type) (N : Num T) (special : text -> T) (show : T -> text) (r : reader), check_vitals r = Ok tt ->
  let units := strg r "General" "units" "None" in let type := strg r "Field" "field_type" "" in
  (units <> "SI" -> units <> "si" -> read_all_w special show true true r = ([], Exit 1)) /\
  (units = "SI" \/ units = "si" -> has_section r "Field" = true -> ~ In type ["static"; "plane"; "gaussian"; "focusing"] ->
   exists g, read_general special r = Ok (si_units, g) /\ read_all_w special show true true r = (unlines (general_lines (map_general show g)), Exit 1)).
Proof.
  intros T N special show r CV units type. split.
  - intros U1 U2. unfold read_all_w. rewrite CV. unfold read_general_w, read_general. fold units. unfold units_system.
    apply String.eqb_neq in U1, U2. rewrite U1, U2. reflexivity.
  - intros U HF TY. 
    assert (EU : units_system (T := T) units = Ok si_units) by (unfold units_system; destruct U as [-> | ->]; reflexivity).
    assert (EF : read_field special r si_units = Exit 1).
    { unfold read_field. rewrite HF. fold type.
      destruct (String.eqb_spec type "static"); [exfalso; apply TY; cbn; auto|]. destruct (String.eqb_spec type "plane"); [exfalso; apply TY; cbn; auto|].
      destruct (String.eqb_spec type "gaussian"); [exfalso; apply TY; cbn; auto|]. destruct (String.eqb_spec type "focusing"); [exfalso; apply TY; cbn; auto 8|]. reflexivity. }
    unfold read_general. fold units. rewrite EU. cbn [bind]. eexists. split; [reflexivity|].
    unfold read_all_w. rewrite CV. unfold read_general_w, read_general. fold units. rewrite EU. cbn [bind]. unfold wbind, wret, put. cbn [fst snd andb app].
    unfold read_field_w. rewrite EF. unfold wbind, wret. cbn [fst snd app]. rewrite !app_nil_r, general_written. reflexivity.
Qed.

(** "the check file records the parameters of the run" is false *)
Definition check_text (d : string) : text := tx ("[General]
units = SI
time_step = 1
time_end = 2
[Particle1]
energy_distribution = " ++ d ++ "
").
Theorem C122_complete_refuted : forall (T : Type) (N : Num T) (special : text -> T) (show : T -> text), exists ps1 ps2,
  file_parser special (Present (Some (check_text "uniform"))) = Ok ps1 /\ file_parser special (Present (Some (check_text "gaussian"))) = Ok ps2 /\ ps1 <> ps2 /\
  fst (file_parser_w special show true true (Present (Some (check_text "uniform")))) = fst (file_parser_w special show true true (Present (Some (check_text "gaussian")))).
Proof.
  intros T N special show. destruct (file_parser special (Present (Some (check_text "uniform")))) as [ps1|c| |w|] eqn:E1; try (vm_compute in E1; discriminate E1).
  destruct (file_parser special (Present (Some (check_text "gaussian")))) as [ps2|c| |w|] eqn:E2; try (vm_compute in E2; discriminate E2).
  exists ps1, ps2. split; [reflexivity|]. split; [reflexivity|]. split.
  - intros E. subst ps2. rewrite <- E1 in E2. apply (f_equal (fun x => match x with Ok p => map p_distro (in_particles p) | _ => [] end)) in E2. vm_compute in E2. discriminate E2.
  - rewrite (C122_contents _ _ _ _ _ _ E1), (C122_contents _ _ _ _ _ _ E2). do 2 f_equal.
    assert (V : forall p p', Ok p = file_parser special (Present (Some (check_text "uniform"))) -> Ok p' = file_parser special (Present (Some (check_text "gaussian"))) -> visible show p = visible show p').
    { intros p p' H1 H2. vm_compute in H1. vm_compute in H2. injection H1 as ->. injection H2 as ->. reflexivity. }
    apply V; auto.
Qed.

Print Assumptions C122_no_influence. Print Assumptions C122_contents. Print Assumptions C122_tells. Print Assumptions C122_refused. Print Assumptions C122_complete_refuted.

(** a whole check file (every number shown as #) *)
Example C122_case : forall (T : Type) (N : Num T) (special : text -> T), let show := fun _ : T => tx "#" in
  (forall x, on_line (show x) /\ no_blank (show x)) /\
  (exists ps, file_parser special (Present (Some (check_text "uniform"))) = Ok ps /\ plain_names ps) /\
  str (fst (file_parser_w special show true true (Present (Some (check_text "uniform"))))) = "General input parameters 
Units       = SI
Time step   = #
Time end    = #
Output file = out.h5
Tracking    = 0


Particle 1
Name       = Particle1
Number     = 1
Type       = Electron
Energy1    = #
Energy2    = #
Radius     = #
Divergence     = #
Duration   = #
Output     = 0
Direction  = [# # #]
Position   = [# # #]


Physics parameters 
Physics module used   = 
Pair production       = 0
Sample fraction       = #
Minimum photon energy = #


".
Proof.
  intros T N special show. split; [intros x; split; lit|]. split.
  - destruct (file_parser special (Present (Some (check_text "uniform")))) as [ps|c| |w|] eqn:E; try (vm_compute in E; discriminate E).
    exists ps. split; [reflexivity|]. assert (V : forall p, Ok p = file_parser special (Present (Some (check_text "uniform"))) -> plain_names p).
    { intros p H. vm_compute in H. injection H as ->. repeat split; try lit; repeat constructor; lit. }
    apply V. auto.
  - vm_compute. reflexivity.
Qed.
