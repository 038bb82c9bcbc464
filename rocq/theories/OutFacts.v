(** * Facts about the output file and the output manager *)
From Coq Require Import String Ascii ZArith List Bool Lia Arith DecimalString DecimalNat.
From Verif Require Import Num Outcome OutcomeFacts Vec Units Particle ParticleList Fields Histogram Hdf5 Output.
Import ListNotations.

(** ** Paths *)
Lemma path_go_app a : forall b cur, path_go (a ++ "/" ++ b)%string cur = path_go a cur ++ path_go b "".
Proof.
  induction a as [|c a IH]; intros b cur; cbn [String.append path_go].
  - rewrite Ascii.eqb_refl. destruct (String.eqb cur ""); reflexivity.
  - change (a ++ String "/" b)%string with (a ++ "/" ++ b)%string. rewrite !IH.
    destruct (Ascii.eqb c "/"); [|reflexivity]. destruct (String.eqb cur ""); reflexivity.
Qed.
Lemma path_app a b : path (a ++ "/" ++ b)%string = path a ++ path b.
Proof. apply path_go_app. Qed.

Definition no_slash (s : string) : Prop := forall c, In c (list_ascii_of_string s) -> c <> "/"%char.
Lemma append_assoc a b c : ((a ++ b) ++ c = a ++ (b ++ c))%string.
Proof. induction a as [|x a IH]; cbn; [auto|f_equal; auto]. Qed.
Lemma append_nil a : (a ++ "" = a)%string.
Proof. induction a as [|x a IH]; cbn; [auto|f_equal; auto]. Qed.
Lemma append_cancel a b c : (a ++ b = a ++ c)%string -> b = c.
Proof. induction a as [|x a IH]; cbn; [auto|]. intros HX. injection HX. auto. Qed.
Lemma path_go_one s : no_slash s -> forall cur, path_go s cur = if String.eqb (cur ++ s) "" then [] else [(cur ++ s)%string].
Proof.
  induction s as [|c s IH]; intros HN cur; cbn [path_go].
  - rewrite append_nil. reflexivity.
  - destruct (Ascii.eqb_spec c "/") as [->|NE]; [exfalso; apply (HN "/"%char); [left; auto|auto]|].
    rewrite IH by (intros x Hx; apply HN; right; auto). rewrite append_assoc. reflexivity.
Qed.
Lemma path_one s : no_slash s -> s <> ""%string -> path s = [s].
Proof. intros HN HE. unfold path. rewrite path_go_one by auto. cbn [String.append]. destruct (String.eqb_spec s ""); [contradiction|auto]. Qed.

Lemma digits_no_slash d : no_slash (NilEmpty.string_of_uint d).
Proof. induction d as [|d IH|d IH|d IH|d IH|d IH|d IH|d IH|d IH|d IH|d IH]; intros c HC; cbn in HC; [contradiction|..]; (destruct HC as [<-|HC]; [discriminate|exact (IH c HC)]). Qed.
Lemma to_string_spec n : no_slash (to_string n) /\ to_string n <> ""%string.
Proof.
  unfold to_string, NilZero.string_of_uint. destruct (Nat.to_uint n) eqn:EQ; (split; [|try discriminate]).
  all: try (intros c HC; destruct HC as [<-|HC]; [discriminate|]; try contradiction; exact (digits_no_slash _ c HC)).
Qed.
Lemma to_string_inj n m : to_string n = to_string m -> n = m.
Proof.
  unfold to_string. intros HX. assert (HU : Nat.to_uint n = Nat.to_uint m).
  { assert (HN : forall k, Nat.to_uint k <> Decimal.Nil).
    { intros k HK. pose proof (Unsigned.to_of (Nat.to_uint k)) as HR. rewrite Unsigned.of_to in HR. rewrite HK in HR. discriminate. }
    assert (HR : NilZero.uint_of_string (NilZero.string_of_uint (Nat.to_uint n)) = NilZero.uint_of_string (NilZero.string_of_uint (Nat.to_uint m))) by (rewrite HX; auto).
    rewrite !NilZero.usu in HR by apply HN. congruence. }
  rewrite <- (Unsigned.of_to n), <- (Unsigned.of_to m), HU. reflexivity.
Qed.

Lemma no_slash_app a b : no_slash a -> no_slash b -> no_slash (a ++ b)%string.
Proof.
  intros HA HB. induction a as [|x a IH]; cbn; auto. intros c [<-|HC]; [apply HA; left; auto|].
  apply IH; [intros y Hy; apply HA; right; auto|auto].
Qed.

Section OutFacts.
Context {T : Type} `{Num T}.

(** ** The tree only grows *)
Definition grows (f f' : tree T) : Prop := forall p n, lookup f p = Some n -> lookup f' p = Some n.
Lemma grows_refl f : grows f f.
Proof. intros p n HX. auto. Qed.
Lemma grows_trans f g h : grows f g -> grows g h -> grows f h.
Proof. intros HA HB p n HX. auto. Qed.
Lemma create_ok (f f' : tree T) p n : create f p n = Ok f' -> exists_ f p = false /\ is_group f (removelast p) = true /\ f' = (p, n) :: f.
Proof.
  unfold create. destruct (exists_ f p); [discriminate|]. destruct (is_group f (removelast p)); [|discriminate].
  intros HX. split; [auto|]. split; [auto|]. congruence.
Qed.
Lemma create_cases (f : tree T) p n : create f p n = Throw \/ create f p n = Ok ((p, n) :: f).
Proof. unfold create. destruct (exists_ f p); [auto|]. destruct (is_group f (removelast p)); auto. Qed.
Lemma exists_lookup (f : tree T) p : p <> [] -> exists_ f p = true <-> exists n, lookup f p = Some n.
Proof.
  intros HP. destruct p as [|x p]; [contradiction|]. cbn [exists_]. destruct (lookup f (x :: p)) as [n|]; split; eauto; [discriminate|].
  intros (n & HX). discriminate.
Qed.
Lemma lookup_cons p n (f : tree T) q : lookup ((p, n) :: f) q = if list_eq_dec string_dec q p then Some n else lookup f q.
Proof. reflexivity. Qed.
Lemma create_grows (f f' : tree T) p n : create f p n = Ok f' -> grows f f' /\ lookup f' p = Some n.
Proof.
  intros HX. destruct (create_ok _ _ _ _ HX) as (HE & _ & ->). split.
  - intros q m HQ. rewrite lookup_cons. destruct (list_eq_dec string_dec q p) as [->|NE]; auto.
    exfalso. destruct p as [|a p]; [discriminate|]. cbn in HE. rewrite HQ in HE. discriminate.
  - rewrite lookup_cons. destruct (list_eq_dec string_dec p p); [auto|contradiction].
Qed.

Variable code : objinfo.
Variable garbage : T.
Variable fld : field T.

Definition ogrows (s s' : om T) : Prop := grows (f_tree (om_file s)) (f_tree (om_file s')) /\ om_units s' = om_units s.
Lemma ogrows_refl s : ogrows s s.
Proof. split; [apply grows_refl|auto]. Qed.
Lemma ogrows_trans a b c : ogrows a b -> ogrows b c -> ogrows a c.
Proof. intros [A1 A2] [B1 B2]. split; [eapply grows_trans; eauto|congruence]. Qed.

Lemma o_group_grows s name s' : o_group code s name = Ok s' -> ogrows s s'.
Proof.
  unfold o_group, add_group. intros HX. apply bind_ok in HX. destruct HX as (f & HF & HX). injection HX; intros <-.
  apply bind_ok in HF. destruct HF as (g & _ & HF). split; [|reflexivity]. cbn [with_file om_file].
  destruct (Bool.eqb _ false).
  - apply bind_ok in HF. destruct HF as (t & HT & HF). injection HF; intros <-. cbn [f_tree]. apply (create_grows _ _ _ _ HT).
  - injection HF; intros <-. apply grows_refl.
Qed.
Lemma o_array_grows s buf dims name s' : o_array s buf dims name = Ok s' ->
  ogrows s s' /\ lookup (f_tree (om_file s')) (path name) = Some (Dat dims (firstn (Z.to_nat (zprod dims)) buf)).
Proof.
  unfold o_array, add_array. intros HX. apply bind_ok in HX. destruct HX as (f & HF & HX). injection HX; intros <-.
  apply bind_ok in HF. destruct HF as (t & HT & HF). destruct (Z.ltb_spec (Z.of_nat (length buf)) (zprod dims)); [discriminate|].
  injection HF; intros <-. cbn [with_file om_file f_tree]. destruct (create_grows _ _ _ _ HT) as [A B]. split; [split; auto|auto].
Qed.

Ltac ob HX := let f := fresh "s" in let HF := fresh "HF" in apply bind_ok in HX; destruct HX as (f & HF & HX).

Lemma once_grows (b : bool) s (g : string) (w : om T -> om T) s' : (forall x, ogrows x (w x)) ->
  (if b then Ok s else let* s := o_group code s g in Ok (w s)) = Ok s' -> ogrows s s'.
Proof.
  intros HW HX. destruct b; [injection HX; intros <-; apply ogrows_refl|]. ob HX. injection HX; intros <-.
  eapply ogrows_trans; [eapply o_group_grows; eauto|apply HW].
Qed.
Lemma w_single x : ogrows x (with_single x).
Proof. split; [apply grows_refl|auto]. Qed.
Lemma w_list x : ogrows x (with_list x).
Proof. split; [apply grows_refl|auto]. Qed.
Lemma w_source x : ogrows x (with_source x).
Proof. split; [apply grows_refl|auto]. Qed.

Lemma out_arrays_grows s name pos mom a b time gamma s' : out_arrays s name pos mom a b time gamma = Ok s' -> ogrows s s'.
Proof.
  unfold out_arrays. intros HX. ob HX. ob HX. ob HX. apply o_array_grows in HF, HF0, HF1, HX.
  eapply ogrows_trans; [apply HF|]. eapply ogrows_trans; [apply HF0|]. eapply ogrows_trans; [apply HF1|apply HX].
Qed.
Lemma list_tracks_from_grows name ps : forall i s s', list_tracks_from code s name i ps = Ok s' -> ogrows s s'.
Proof.
  induction ps as [|p ps IH]; intros i s s' HX; cbn [list_tracks_from] in HX; [injection HX; intros <-; apply ogrows_refl|].
  destruct (negb (p_tracking p)); [discriminate|]. cbv zeta in HX. ob HX. ob HX. apply o_group_grows in HF. apply out_arrays_grows in HF0.
  eapply ogrows_trans; [apply HF|]. eapply ogrows_trans; [apply HF0|]. eapply IH; eauto.
Qed.
Lemma output_tracks_from_grows ts : forall i s s', output_tracks_from code s i ts = Ok s' -> ogrows s s'.
Proof.
  induction ts as [|k ts IH]; intros i s s' HX; cbn [output_tracks_from] in HX; [injection HX; intros <-; apply ogrows_refl|].
  cbv zeta in HX. ob HX. ob HX. apply o_group_grows in HF. apply out_arrays_grows in HF0.
  eapply ogrows_trans; [apply HF|]. eapply ogrows_trans; [apply HF0|]. eapply IH; eauto.
Qed.
Lemma out_species_grows s tb buf name s' : out_species s tb buf name = Ok s' -> ogrows s s'.
Proof.
  unfold out_species. destruct (0 <? total (tb_count tb))%Z; intros HX; [apply o_array_grows in HX; apply HX|].
  injection HX; intros <-. apply ogrows_refl.
Qed.
Lemma output_source_grows s s' : output_source code garbage s = Ok s' -> ogrows s s' /\
  exists n, lookup (f_tree (om_file s')) (path "Particles/ParticleSource/Primary") = Some n.
Proof.
  unfold output_source. intros HX. ob HX. apply once_grows in HF; [|apply w_source]. ob HX. ob HX. ob HX. ob HX. ob HX. ob HX. ob HX.
  apply o_array_grows in HF1. apply out_species_grows in HF5, HF6, HX. destruct HF1 as [G1 L1].
  assert (GR : ogrows s2 s') by (eapply ogrows_trans; [apply HF5|]; eapply ogrows_trans; [apply HF6|apply HX]).
  split; [eapply ogrows_trans; [apply HF|]; eapply ogrows_trans; [apply G1|apply GR]|].
  eexists. apply GR. exact L1.
Qed.
Lemma output_events_grows s a b s' : output_events code garbage s a b = Ok s' -> ogrows s s' /\
  (a = true -> exists n, lookup (f_tree (om_file s')) (path "Particles/ParticleSource/Primary") = Some n).
Proof.
  unfold output_events. intros HX. ob HX.
  assert (G1 : ogrows s s0 /\ (a = true -> exists n, lookup (f_tree (om_file s0)) (path "Particles/ParticleSource/Primary") = Some n)).
  { destruct a; [destruct (output_source_grows _ _ HF) as [A B]; auto|]. injection HF; intros <-. split; [apply ogrows_refl|discriminate]. }
  assert (G2 : ogrows s0 s').
  { destruct b; [|injection HX; intros <-; apply ogrows_refl]. unfold output_track in HX. ob HX. apply once_grows in HF0; [|apply w_list].
    eapply ogrows_trans; [apply HF0|]. eapply output_tracks_from_grows; eauto. }
  destruct G1 as [G1 P1]. split; [eapply ogrows_trans; eauto|]. intros HA. destruct (P1 HA) as (n & HN). exists n. apply G2. exact HN.
Qed.
Lemma out_dir_grows s g t xs ys zs d s' : out_dir garbage fld s g t xs ys zs d = Ok s' -> ogrows s s'.
Proof.
  unfold out_dir. cbv zeta. intros HX. ob HX. ob HX. ob HX. apply o_array_grows in HF1, HX. eapply ogrows_trans; [apply HF1|apply HX].
Qed.
Lemma out_field_grows ts xs ys zs : forall i s s', out_field_from code garbage fld s i ts xs ys zs = Ok s' -> ogrows s s'.
Proof.
  induction ts as [|t ts IH]; intros i s s' HX; cbn [out_field_from] in HX; [injection HX; intros <-; apply ogrows_refl|].
  cbv zeta in HX. ob HX. ob HX. ob HX. ob HX. apply o_group_grows in HF. apply out_dir_grows in HF0, HF1, HF2.
  eapply ogrows_trans; [apply HF|]. eapply ogrows_trans; [apply HF0|]. eapply ogrows_trans; [apply HF1|]. eapply ogrows_trans; [apply HF2|eapply IH; eauto].
Qed.
Lemma exec_grows s o s' : exec code garbage fld s o = Ok s' -> ogrows s s'.
Proof.
  destruct o as [p name|l name|l name|n|l id|l id|l id|a b|ts xs ys zs|h]; cbn [exec]; intros HX.
  - unfold single_particle in HX. ob HX. apply once_grows in HF; [|apply w_single]. eapply ogrows_trans; [apply HF|].
    destruct (negb (p_tracking p)); [discriminate|]. cbv zeta in HX. ob HX. ob HX. apply o_group_grows in HF1. apply out_arrays_grows in HX.
    eapply ogrows_trans; [apply HF1|apply HX].
  - unfold list_tracks in HX. ob HX. apply once_grows in HF; [|apply w_list]. ob HX. apply o_group_grows in HF0.
    eapply ogrows_trans; [apply HF|]. eapply ogrows_trans; [apply HF0|]. eapply list_tracks_from_grows; eauto.
  - unfold list_properties in HX. ob HX. apply once_grows in HF; [|apply w_list]. cbv zeta in HX. ob HX. apply o_group_grows in HF0.
    apply o_array_grows in HX. eapply ogrows_trans; [apply HF|]. eapply ogrows_trans; [apply HF0|apply HX].
  - injection HX; intros <-. split; [apply grows_refl|auto].
  - unfold store_primary in HX. ob HX. ob HX. injection HX; intros <-. split; [apply grows_refl|auto].
  - unfold store_final in HX. ob HX. ob HX. ob HX. injection HX; intros <-. split; [apply grows_refl|auto].
  - injection HX; intros <-. split; [apply grows_refl|auto].
  - apply output_events_grows in HX. apply HX.
  - eapply out_field_grows; eauto.
  - unfold out_hist in HX. cbv zeta in HX. ob HX. ob HX. apply o_group_grows in HF. apply o_array_grows in HF0, HX.
    eapply ogrows_trans; [apply HF|]. eapply ogrows_trans; [apply HF0|apply HX].
Qed.
Lemma exec_all_grows os : forall s s', exec_all code garbage fld s os = Ok s' -> ogrows s s'.
Proof.
  induction os as [|o os IH]; intros s s' HX; cbn [exec_all] in HX; [injection HX; intros <-; apply ogrows_refl|].
  ob HX. apply exec_grows in HF. eapply ogrows_trans; eauto.
Qed.
Lemma exec_all_app os1 os2 : forall s, exec_all code garbage fld s (os1 ++ os2) = let* s' := exec_all code garbage fld s os1 in exec_all code garbage fld s' os2.
Proof.
  induction os1 as [|o os IH]; intros s; cbn [app exec_all]; [reflexivity|]. destruct (exec code garbage fld s o); [apply IH|reflexivity..].
Qed.

(** ** Buffers *)
Lemma put_here (pre post : list T) x v : put (pre ++ x :: post) (Z.of_nat (length pre)) v = Ok (pre ++ v :: post).
Proof.
  unfold put. rewrite app_length. cbn [length]. destruct (Z.ltb_spec (Z.of_nat (length pre)) 0); [lia|].
  destruct (Z.leb_spec (Z.of_nat (length pre + S (length post))) (Z.of_nat (length pre))); [lia|]. cbn [orb]. rewrite Nat2Z.id. f_equal.
  clear. induction pre as [|y pre IH]; cbn [length app upd]; [reflexivity|]. f_equal. exact IH.
Qed.
Lemma put_row_here vs : forall (pre old post : list T), length old = length vs -> (Z.of_nat (length (pre ++ old)) <= 2 ^ 32)%Z ->
  put_row (pre ++ old ++ post) (Z.of_nat (length pre)) vs = Ok (pre ++ vs ++ post).
Proof.
  induction vs as [|v vs IH]; intros pre old post HL HB; destruct old as [|x old]; try discriminate; cbn [put_row app]; [reflexivity|].
  rewrite app_length in HB. cbn [length] in HB, HL. rewrite u32_id by lia. rewrite put_here. cbn [bind].
  replace (pre ++ v :: old ++ post) with ((pre ++ [v]) ++ old ++ post) by (rewrite <- app_assoc; reflexivity).
  replace (Z.of_nat (length pre) + 1)%Z with (Z.of_nat (length (pre ++ [v]))) by (rewrite app_length; cbn [length]; lia).
  rewrite IH; [rewrite <- app_assoc; reflexivity|lia|]. rewrite !app_length. cbn [length]. lia.
Qed.
Lemma repeat_split (x : T) a b : repeat x (a + b) = repeat x a ++ repeat x b.
Proof. apply repeat_app. Qed.

Definition is_named (name : string) (p : particle T) : bool := String.eqb (p_name p) name.
Definition rows_of (name : string) (id : Z) (ps : list (particle T)) : list (list T) := map (row id) (filter (is_named name) ps).

Lemma row_length id (p : particle T) : length (row id p) = 8%nat.
Proof. reflexivity. Qed.
Lemma concat_length8 (rs : list (list T)) : (forall r, In r rs -> length r = 8%nat) -> length (concat rs) = (8 * length rs)%nat.
Proof.
  induction rs as [|r rs IH]; intros HX; [reflexivity|]. cbn [concat length]. rewrite app_length, (HX r) by (left; auto).
  rewrite IH by (intros q Hq; apply HX; right; auto). lia.
Qed.
Lemma rows_of8 name id ps : forall r, In r (rows_of name id ps) -> length r = 8%nat.
Proof. intros r HR. apply in_map_iff in HR. destruct HR as (p & <- & _). apply row_length. Qed.

Lemma count_named_eq name ps : forall c, (0 <= c)%Z -> (c + Z.of_nat (length (filter (is_named name) ps)) < 2 ^ 32)%Z ->
  count_named name ps c = (c + Z.of_nat (length (filter (is_named name) ps)))%Z.
Proof.
  induction ps as [|p ps IH]; intros c HC HB; cbn [count_named filter] in *; [cbn; lia|].
  change (String.eqb (p_name p) name) with (is_named name p). destruct (is_named name p); cbn [length] in *; [|apply IH; auto].
  rewrite u32_id by lia. rewrite IH by lia. lia.
Qed.
Lemma store_rows_eq name id ps : forall (pre post : list T) c, length pre = (8 * c)%nat ->
  length post = (8 * length (filter (is_named name) ps))%nat -> (Z.of_nat (length pre + length post) < 2 ^ 32)%Z ->
  store_rows name id ps (pre ++ post) (Z.of_nat c) = Ok (pre ++ concat (rows_of name id ps), (Z.of_nat (c + length (filter (is_named name) ps)))).
Proof.
  unfold rows_of. induction ps as [|p ps IH]; intros pre post c HL HP HB; cbn [store_rows filter] in *.
  - destruct post; [|discriminate]. cbn [map concat length]. rewrite Nat.add_0_r. reflexivity.
  - change (String.eqb (p_name p) name) with (is_named name p). destruct (is_named name p) eqn:EN; [|apply IH; auto].
    cbn [length] in HP, HB |- *. rewrite u32_id by lia. replace (Z.of_nat c * 8)%Z with (Z.of_nat (length pre)) by lia.
    rewrite <- (firstn_skipn 8 post). rewrite put_row_here.
    + cbn [bind]. rewrite u32_id by lia. rewrite app_assoc. replace (Z.of_nat c + 1)%Z with (Z.of_nat (S c)) by lia.
      rewrite IH.
      * cbn [map concat]. rewrite <- app_assoc. f_equal. f_equal. f_equal. lia.
      * rewrite app_length, row_length. lia.
      * rewrite skipn_length. lia.
      * rewrite app_length, row_length, skipn_length. lia.
    + rewrite firstn_length, row_length. lia.
    + rewrite app_length, firstn_length. lia.
Qed.

(** 2^29 rows of 8 doubles is the largest addressable amount *)
Lemma store_species_eq name id ps (tb : table T) : (0 <= id)%Z -> (id < Z.of_nat (length (tb_count tb)))%Z -> (id < Z.of_nat (length (tb_rows tb)))%Z ->
  (Z.of_nat (length (filter (is_named name) ps)) < 2 ^ 29)%Z ->
  store_species garbage name id ps tb = Ok (mkTab (upd (tb_rows tb) (Z.to_nat id) (Some (concat (rows_of name id ps))))
    (upd (tb_count tb) (Z.to_nat id) (Z.of_nat (length (rows_of name id ps))))).
Proof.
  intros H0 H1 H2 HB. unfold store_species. rewrite (get_Z (tb_count tb) id 0%Z) by lia. rewrite (get_Z (tb_rows tb) id None) by lia. cbn [bind].
  rewrite count_named_eq by lia. rewrite Z.add_0_l. rewrite u32_id by lia.
  pose proof (store_rows_eq name id ps [] (repeat garbage (Z.to_nat (Z.of_nat (length (filter (is_named name) ps)) * 8))) 0) as HS.
  cbn [app length Nat.add] in HS. change (Z.of_nat 0) with 0%Z in HS. rewrite HS; [| reflexivity | rewrite repeat_length; lia | rewrite repeat_length; lia].
  cbn [bind fst snd]. unfold rows_of. rewrite map_length. reflexivity.
Qed.

Lemma read_row_eq (pre r post : list T) : (Z.of_nat (length pre + length r) <= 2 ^ 32)%Z ->
  read_row (pre ++ r ++ post) (Z.of_nat (length pre)) (length r) = Ok r.
Proof.
  revert pre. induction r as [|x r IH]; intros pre HB; cbn [read_row length app]; [reflexivity|]. cbn [length] in HB.
  rewrite u32_id by lia. rewrite (get_Z _ _ x) by (rewrite app_length; cbn [length]; lia). rewrite Nat2Z.id.
  rewrite app_nth2 by lia. rewrite Nat.sub_diag. cbn [nth bind].
  replace (pre ++ x :: r ++ post) with ((pre ++ [x]) ++ r ++ post) by (rewrite <- app_assoc; reflexivity).
  replace (Z.of_nat (length pre) + 1)%Z with (Z.of_nat (length (pre ++ [x]))) by (rewrite app_length; cbn [length]; lia).
  rewrite IH by (rewrite app_length; cbn [length]; lia). reflexivity.
Qed.

Lemma copy_rows_eq rs : forall (src0 pre post : list T) j, (forall r, In r rs -> length r = 8%nat) -> length src0 = (8 * j)%nat ->
  length post = (8 * length rs)%nat -> (Z.of_nat (length pre + length post) < 2 ^ 32)%Z -> (Z.of_nat (8 * (j + length rs)) < 2 ^ 32)%Z ->
  forall rest, (Z.of_nat (length (pre ++ post)) < 2 ^ 32)%Z ->
  copy_rows (Some (src0 ++ concat rs)) (Z.of_nat j) (length rs) (pre ++ post ++ rest) (Z.of_nat (length pre)) =
  Ok (pre ++ concat rs ++ rest, Z.of_nat (length pre + 8 * length rs)).
Proof.
  induction rs as [|r rs IH]; intros src0 pre post j H8 HS HP HB HJ rest HQ; cbn [copy_rows length] in *.
  - destruct post; [|discriminate]. cbn [concat app]. f_equal. f_equal. lia.
  - assert (HR : length r = 8%nat) by (apply H8; left; auto). rewrite u32_id by lia. replace (Z.of_nat j * 8)%Z with (Z.of_nat (length src0)) by lia.
    cbn [concat]. rewrite <- HR at 1. rewrite read_row_eq by lia. cbn [bind].
    rewrite <- (firstn_skipn 8 post). rewrite <- (app_assoc (firstn 8 post)). rewrite put_row_here; [|rewrite firstn_length; lia|rewrite app_length, firstn_length; lia].
    cbn [bind]. rewrite u32_id by lia.
    replace (pre ++ r ++ skipn 8 post ++ rest) with ((pre ++ r) ++ skipn 8 post ++ rest) by (rewrite <- app_assoc; reflexivity).
    replace (src0 ++ r ++ concat rs) with ((src0 ++ r) ++ concat rs) by (rewrite <- app_assoc; reflexivity).
    replace (Z.of_nat (length pre) + 8)%Z with (Z.of_nat (length (pre ++ r))) by (rewrite app_length; lia).
    replace (Z.of_nat j + 1)%Z with (Z.of_nat (S j)) by lia.
    rewrite IH.
    + rewrite <- !app_assoc. f_equal. f_equal. rewrite app_length. lia.
    + intros q Hq. apply H8. right; auto.
    + rewrite app_length. lia.
    + rewrite skipn_length. lia.
    + rewrite app_length, skipn_length. lia.
    + lia.
    + rewrite !app_length, skipn_length. lia.
Qed.

(** a table whose event [i] holds the rows [nth i rss] *)
Definition holds (tb : table T) (rss : list (list (list T))) : Prop :=
  tb_count tb = map (fun rs => Z.of_nat (length rs)) rss /\
  Forall2 (fun o rs => o = Some (concat rs) \/ (o = None /\ rs = [])) (tb_rows tb) rss /\
  forall rs r, In rs rss -> In r rs -> length r = 8%nat.

Lemma total_eq rss : forall a, (0 <= a)%Z -> (a + Z.of_nat (length (concat rss)) < 2 ^ 32)%Z ->
  fold_left (fun a c => u32 (a + c)) (map (fun rs : list (list T) => Z.of_nat (length rs)) rss) a = (a + Z.of_nat (length (concat rss)))%Z.
Proof.
  induction rss as [|rs rss IH]; intros a HA HB; cbn [map fold_left concat] in *; [cbn; lia|]. rewrite app_length in *.
  rewrite u32_id by lia. rewrite IH by lia. lia.
Qed.
Lemma copy_events_eq rows rss : Forall2 (fun o rs => o = Some (concat rs) \/ (o = None /\ rs = [])) rows rss ->
  (forall rs r, In rs rss -> In r rs -> length r = 8%nat) -> forall (pre post : list T),
  length post = (8 * length (concat rss))%nat -> (Z.of_nat (length pre + length post) < 2 ^ 32)%Z ->
  copy_events rows (map (fun rs => Z.of_nat (length rs)) rss) (pre ++ post) (Z.of_nat (length pre)) = Ok (pre ++ concat (concat rss)).
Proof.
  induction 1 as [|o rs rows rss HO HF IH]; intros H8 pre post HP HB; cbn [copy_events map concat] in *.
  - destruct post; [|discriminate]. reflexivity.
  - rewrite app_length in HP. rewrite Nat2Z.id.
    assert (H8' : forall r, In r rs -> length r = 8%nat) by (intros r Hr; apply (H8 rs); [left; auto|auto]).
    assert (HC : copy_rows o 0 (length rs) (pre ++ post) (Z.of_nat (length pre)) = Ok (pre ++ concat rs ++ skipn (8 * length rs) post, Z.of_nat (length pre + 8 * length rs))).
    { destruct HO as [-> | [-> ->]].
      - rewrite <- (firstn_skipn (8 * length rs) post) at 1. change 0%Z with (Z.of_nat 0). change (concat rs) with ([] ++ concat rs) at 1.
        rewrite (copy_rows_eq rs [] pre (firstn (8 * length rs) post) 0); auto.
        + rewrite firstn_length. lia.
        + rewrite firstn_length. lia.
        + lia.
        + rewrite app_length, firstn_length. lia.
      - cbn [length copy_rows concat app]. rewrite Nat.mul_0_r, Nat.add_0_r. reflexivity. }
    rewrite HC. cbn [bind fst snd]. rewrite app_assoc.
    replace (length pre + 8 * length rs)%nat with (length (pre ++ concat rs)) by (rewrite app_length, concat_length8 by auto; lia).
    rewrite IH.
    + rewrite concat_app, <- !app_assoc. reflexivity.
    + intros q r Hq. apply H8. right; auto.
    + rewrite skipn_length. lia.
    + rewrite app_length, concat_length8, skipn_length by auto. lia.
Qed.
Lemma species_buffer_eq tb rss : holds tb rss -> (Z.of_nat (length (concat rss)) < 2 ^ 29)%Z ->
  species_buffer garbage tb = Ok (concat (concat rss)) /\ total (tb_count tb) = Z.of_nat (length (concat rss)).
Proof.
  intros (HC & HF & H8) HB. assert (HT : total (tb_count tb) = Z.of_nat (length (concat rss))) by (unfold total; rewrite HC, total_eq; lia).
  split; [|auto]. unfold species_buffer. rewrite HT, u32_id by lia. rewrite HC.
  rewrite <- (app_nil_l (repeat garbage _)). rewrite (copy_events_eq (tb_rows tb) rss HF H8 []); [reflexivity|rewrite repeat_length; lia|rewrite repeat_length; cbn [length]; lia].
Qed.
Lemma prime_rows_eq rs : (forall r, In r rs -> length r = 8%nat) -> forall (pre post : list T) i, length pre = (8 * i)%nat -> length post = (8 * length rs)%nat ->
  (Z.of_nat (length pre + length post) < 2 ^ 32)%Z ->
  prime_rows (map Some rs) (Z.of_nat i) (pre ++ post) = Ok (pre ++ concat rs).
Proof.
  induction rs as [|r rs IH]; intros H8 pre post i HI HP HB; cbn [prime_rows map concat] in *.
  - destruct post; [|discriminate]. rewrite ?app_nil_r. reflexivity.
  - cbn [length] in HP. assert (HR : length r = 8%nat) by (apply H8; left; auto).
    pose proof (read_row_eq [] r []) as RR. cbn [app length] in RR. rewrite app_nil_r, HR in RR. change (Z.of_nat 0) with 0%Z in RR. rewrite RR by lia. cbn [bind].
    rewrite u32_id by lia. replace (Z.of_nat i * 8)%Z with (Z.of_nat (length pre)) by lia.
    rewrite <- (firstn_skipn 8 post). rewrite put_row_here; [|rewrite firstn_length; lia|rewrite app_length, firstn_length; lia]. cbn [bind].
    rewrite app_assoc. replace (Z.of_nat i + 1)%Z with (Z.of_nat (S i)) by lia. rewrite IH.
    + rewrite <- app_assoc. reflexivity.
    + intros q Hq. apply H8. right; auto.
    + rewrite app_length. lia.
    + rewrite skipn_length. lia.
    + rewrite app_length, skipn_length. lia.
Qed.

End OutFacts.
