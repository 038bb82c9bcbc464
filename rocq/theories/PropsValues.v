(** * Properties of the typed lookups: C67, C68 *)
From Coq Require Import String ZArith List Bool Ascii Lia NArith.
From Verif Require Import Num Outcome Vec Text Ini IniReader IniFacts SpecIni SpecNumeral NumeralFacts PropsIni.
Import ListNotations.
Local Open Scope Z_scope.

(** ** C67: vectors *)
Lemma spaced_cons : forall k s n l j,
  spaced ((k, s, n) :: l) j = blanks k ++ render_sign s ++ render n ++ spaced l j.
Proof. intros. unfold spaced. cbn [flat_map fst snd]. now rewrite <- !app_assoc. Qed.

Lemma spaced_start : forall l j, Forall (fun x => (1 <= fst (fst x))%nat) l ->
  spaced l j = [] \/ exists r, spaced l j = " "%char :: r.
Proof.
  intros l j F. destruct F as [|[[k s] n] l Hk F].
  - destruct j; [now left|]. right. eexists. reflexivity.
  - right. rewrite spaced_cons. cbn [fst] in Hk. destruct k; [lia|]. eexists. reflexivity.
Qed.

Section Vectors.
Context {T : Type} `{Num T}.

Definition num_of (x : nat * sgn * numeral) : T := number (snd (fst x)) (snd x).

Fixpoint vset_list (v : vec T) (i : nat) (xs : list T) : vec T :=
  match xs with [] => v | x :: r => vset_list (vset v i x) (S i) r end.

Lemma read_spaced : forall l j fuel i v,
  Forall (fun x => proper (snd x)) l -> separated l ->
  (length (spaced l j) < fuel)%nat -> (i <= 3)%nat ->
  read_vector fuel (spaced l j) i v =
  if Nat.leb (i + length l) 3 then Ok (vset_list v i (map num_of l)) else Exit 1.
Proof.
  induction l as [|[[k s] n] l IH]; intros j fuel i v P S Hf Hi;
    (destruct fuel as [|fuel]; [lia|]); cbn [read_vector].
  - unfold spaced at 1. cbn [flat_map app]. rewrite stream_blanks. cbn [length map vset_list].
    replace (Nat.leb (i + 0) 3) with true by (symmetry; apply Nat.leb_le; lia). reflexivity.
  - inversion P as [|? ? Pn Pl]; subst. cbn [snd] in Pn. cbn [separated] in S.
    rewrite spaced_cons. rewrite (stream_number k s n (spaced l j)); auto.
    2: { now apply spaced_start. }
    cbn [length map vset_list].
    destruct (Nat.eqb_spec i 3) as [->|N].
    + replace (Nat.leb (3 + Datatypes.S (length l)) 3) with false by (symmetry; apply Nat.leb_gt; lia).
      reflexivity.
    + rewrite IH.
      * replace (i + Datatypes.S (length l))%nat with (Datatypes.S i + length l)%nat by lia. reflexivity.
      * exact Pl.
      * destruct S; [exact I|]. cbn [separated]. assumption.
      * rewrite spaced_cons in Hf. rewrite !app_length in Hf.
        destruct (render_head n Pn) as (c & r & Er & _). rewrite Er in Hf. cbn [length] in Hf. lia.
      * lia.
Qed.

(** Blank-separated numbers, whatever other characters are mixed in that are
    dropped (brackets, letters, commas, plus signs). *)
Theorem C67_spaced_numbers : forall r s n d l j,
  filter vector_char (get_text r s n []) = spaced l j ->
  Forall (fun x => proper (snd x)) l -> separated l ->
  get_vector r s n d =
  if Nat.leb (length l) 3
  then Ok (mkV (nth 0 (map num_of l) n0) (nth 1 (map num_of l) n0) (nth 2 (map num_of l) n0))
  else Exit 1.
Proof.
  intros r s n d l j E P S. unfold get_vector. rewrite E. cbv zeta.
  rewrite read_spaced by (auto; lia). cbn [plus].
  destruct (Nat.leb (length l) 3) eqn:L; [|reflexivity]. apply Nat.leb_le in L.
  destruct l as [|a [|b [|c [|e l]]]]; cbn [length] in L; try lia; reflexivity.
Qed.

(** The default is ignored. *)
Theorem C67_missing_is_zero : forall r s n d, has_value r s n = false -> get_vector r s n d = Ok (vzero (T := T)).
Proof.
  intros r s n d E. unfold has_value in E. unfold get_vector, get_text.
  destruct (find (make_key s n) (r_values r)); [discriminate|]. reflexivity.
Qed.

Lemma filter_digits : forall ds, Forall (is_digit 10) ds -> filter vector_char ds = ds.
Proof.
  intros ds F. induction F as [|c ds Hc F IH]; [reflexivity|]. simpl.
  apply is_digit_10 in Hc. unfold vector_char at 1. rewrite Hc, orb_true_r. now rewrite IH.
Qed.

Lemma single_whole : forall r s n d ds, Forall (is_digit 10) ds -> ds <> [] ->
  filter vector_char (get_text r s n []) = ds ->
  get_vector r s n d = Ok (mkV (nlit (value 10 ds) 0) n0 n0).
Proof.
  intros r s n d ds F N E.
  rewrite (C67_spaced_numbers r s n d [(0%nat, NoSign, mkNumeral ds None None)] 0).
  - cbn [length Nat.leb map nth]. unfold num_of, number. cbn [fst snd].
    unfold mantissa, exponent, frac_digits. cbn [ip fp ex length]. now rewrite app_nil_r.
  - rewrite E. unfold spaced, render. cbn. now rewrite !app_nil_r.
  - constructor; [|constructor]. cbn [snd]. unfold proper, frac_digits. cbn [ip fp ex].
    rewrite app_nil_r. auto.
  - constructor.
Qed.

(** The documented form with commas and no blanks, for whole numbers. *)
Theorem C67_commas_join_digits : forall r s n d a b c,
  Forall (is_digit 10) (a ++ b ++ c) -> a ++ b ++ c <> [] ->
  get_text r s n [] = tx "[" ++ a ++ tx "," ++ b ++ tx "," ++ c ++ tx "]" ->
  get_vector r s n d = Ok (mkV (nlit (value 10 (a ++ b ++ c)) 0) n0 n0).
Proof.
  intros r s n d a b c F N E. apply single_whole; auto. rewrite E.
  apply Forall_app in F. destruct F as [Fa F]. apply Forall_app in F. destruct F as [Fb Fc].
  rewrite !filter_app. rewrite (filter_digits a), (filter_digits b), (filter_digits c) by assumption.
  cbn. now rewrite app_nil_r.
Qed.

(** An upper-case exponent letter is dropped: 1E5 is 15. *)
Theorem C67_capital_exponent_dropped : forall r s n d a b,
  Forall (is_digit 10) (a ++ b) -> a ++ b <> [] ->
  get_text r s n [] = a ++ tx "E" ++ b ->
  get_vector r s n d = Ok (mkV (nlit (value 10 (a ++ b)) 0) n0 n0).
Proof.
  intros r s n d a b F N E. apply single_whole; auto. rewrite E.
  apply Forall_app in F. destruct F as [Fa Fb].
  rewrite !filter_app. rewrite (filter_digits a), (filter_digits b) by assumption. reflexivity.
Qed.

(** Whatever the text is, the lookup returns a vector or ends the program. *)
Theorem C67_total : forall r s n (d : vec T),
  (exists v, get_vector r s n d = Ok v) \/ get_vector r s n d = Exit 1.
Proof.
  intros r s n d. unfold get_vector. cbv zeta.
  generalize (filter vector_char (get_text r s n [])). intros t.
  assert (G : forall fuel t i (v : vec T), (length t < fuel)%nat ->
     (exists w, read_vector fuel t i v = Ok w) \/ read_vector fuel t i v = Exit 1).
  { induction fuel as [|fuel IH]; intros t0 i v Hf; [lia|]. cbn [read_vector].
    destruct (stream_double t0) as [[x rest]|] eqn:E; [|left; eauto].
    destruct (Nat.eqb i 3); [now right|]. apply IH. apply stream_progress in E. lia. }
  apply G. lia.
Qed.

End Vectors.

(** ** C68: typed lookups *)
Lemma reader_no_nul : forall t s n, ~ In nul (get_text (reader_of t) s n []).
Proof.
  intros t s n. rewrite reader_of_events.
  assert (G : forall evs r, Forall good_event evs -> Forall (fun kv => no_nul (snd kv)) (r_values r) ->
     Forall (fun kv => no_nul (snd kv)) (r_values (fold_left (apply_event value_handler) evs r))).
  { assert (Fi : forall k l, Forall (fun kv : text * text => no_nul (snd kv)) l ->
       no_nul (match find k l with Some v => v | None => [] end)).
    { intros k l F. induction F as [|[k' v] l Hv F IH]; simpl; [constructor|].
      destruct (teqb k k'); auto. }
    induction evs as [|[[s' n'] v] evs IH]; intros r He Hr; simpl; auto.
    inversion He as [|? ? (_ & _ & Hv) He']; subst. apply IH; auto. cbn [snd r_values] in *.
    assert (As : forall k w l, no_nul w -> Forall (fun kv : text * text => no_nul (snd kv)) l ->
       Forall (fun kv => no_nul (snd kv)) (assign k w l)).
    { intros k w l Hw F. induction F as [|[k' v'] l Hv' F IH']; simpl; [constructor; auto|].
      destruct (teqb k k'); constructor; auto. }
    apply As; auto. specialize (Fi (make_key s' n') _ Hr).
    destruct (match find (make_key s' n') (r_values r) with Some v => v | None => [] end) as [|a0 l0]; [exact Hv|].
    apply (proj2 (Forall_app _ (a0 :: l0) (newline :: v))). split; auto. constructor; [discriminate|exact Hv]. }
  specialize (G (events t) empty_reader (events_good t) (Forall_nil _)).
  unfold get_text. intros I.
  assert (Fi : forall k l, Forall (fun kv : text * text => no_nul (snd kv)) l ->
       no_nul (match find k l with Some v => v | None => [] end)).
  { intros k l F. induction F as [|[k' v] l Hv F IH]; simpl; [constructor|].
    destruct (teqb k k'); auto. }
  specialize (Fi (make_key s n) _ G). unfold no_nul in Fi. rewrite Forall_forall in Fi.
  exact (Fi nul I eq_refl).
Qed.

Lemma skip_spaces : forall ws t, Forall space ws -> (forall c r, t = c :: r -> isspace c = false) ->
  skip_space (ws ++ t) = t.
Proof.
  intros ws t F Ht. pose proof (lskip_spaces ws t F) as E. unfold lskip in E. rewrite E.
  destruct t as [|c r]; [reflexivity|]. simpl. now rewrite (Ht c r eq_refl).
Qed.

Lemma skip_space_split : forall t, exists ws, Forall space ws /\ t = ws ++ skip_space t /\
  (forall c r, skip_space t = c :: r -> isspace c = false).
Proof.
  induction t as [|c t (ws & F & E & H)].
  - exists []. repeat split; [constructor|]. discriminate.
  - simpl. destruct (isspace c) eqn:Ec.
    + exists (c :: ws). repeat split; [constructor; auto| |exact H]. simpl. now rewrite <- E.
    + exists []. repeat split; [constructor|]. intros d r K. inversion K; subst. exact Ec.
Qed.

Lemma sign_split : forall t, exists s, t = render_sign s ++ snd (sign t) /\
  fst (sign t) = match s with Minus => true | _ => false end.
Proof.
  intros [|c t]; [exists NoSign; auto|]. simpl.
  destruct (Ascii.eqb c "-") eqn:E1; [apply Ascii.eqb_eq in E1; subst; exists Minus; auto|].
  destruct (Ascii.eqb c "+") eqn:E2; [apply Ascii.eqb_eq in E2; subst; exists Plus; auto|].
  exists NoSign. auto.
Qed.

(** Blanks, a sign and a digit. *)
Definition starts_integer (t : text) : Prop :=
  exists ws s c r, t = ws ++ render_sign s ++ c :: r /\ Forall space ws /\ is_digit 10 c.

Lemma sign_head_nospace : forall s c r, isspace c = false ->
  forall d q, render_sign s ++ c :: r = d :: q -> isspace d = false.
Proof. intros s c r Hc d q E. destruct s; simpl in E; inversion E; subst; auto. Qed.

Lemma strtol_none : forall t, strtol0 t = None <-> ~ starts_integer t.
Proof.
  intros t. split.
  - intros E (ws & s & c & r & -> & F & D).
    assert (Hc : isspace c = false) by (apply head_no_sign; now left).
    unfold strtol0 in E. rewrite skip_spaces in E; auto.
    2: { now apply sign_head_nospace. }
    rewrite sign_render in E.
    2: { exists c, r. split; auto. now apply digit_no_sign. }
    cbv zeta in E. destruct (Ascii.eqb c "0").
    + destruct r as [|x [|h q]]; try discriminate. destruct (_ && _); discriminate.
    + apply (is_digit_some 10 c) in D; [|auto]. destruct D as [v D]. rewrite D in E. discriminate.
  - intros N. unfold strtol0.
    destruct (skip_space_split t) as (ws & F & E & H).
    destruct (sign_split (skip_space t)) as (s & Es & Ef).
    destruct (sign (skip_space t)) as [neg u]. cbn [fst snd] in *. cbv zeta.
    destruct u as [|c r]; [reflexivity|].
    assert (D : ~ is_digit 10 c).
    { intros D. apply N. exists ws, s, c, r. rewrite <- Es, <- E. auto. }
    destruct (Ascii.eqb c "0") eqn:E0.
    + apply Ascii.eqb_eq in E0. subst. exfalso. apply D. apply is_digit_10. reflexivity.
    + rewrite not_digit_none by auto. reflexivity.
Qed.

Lemma get_integer_strtol : forall t s n d, get_integer (reader_of t) s n d =
  match strtol0 (get_text (reader_of t) s n []) with Some z => z | None => d end.
Proof.
  intros. unfold get_integer, c_str. now rewrite (cstr_no_nul _ (reader_no_nul t s n)).
Qed.

Theorem C68_integer_default : forall t s n,
  (forall d, get_integer (reader_of t) s n d = d) <->
  ~ starts_integer (get_text (reader_of t) s n []).
Proof.
  intros t s n. rewrite <- strtol_none. split.
  - intros H. pose proof (H 0) as H0. pose proof (H 1) as H1. rewrite get_integer_strtol in H0, H1.
    destruct (strtol0 _); [congruence|reflexivity].
  - intros E d. rewrite get_integer_strtol, E. reflexivity.
Qed.

(** The values: decimal, octal after a leading 0, hexadecimal after 0x. *)
Theorem C68_integer_values : forall t s n d ws sg rest, Forall space ws ->
  (forall c ds, get_text (reader_of t) s n [] = ws ++ render_sign sg ++ (c :: ds) ++ rest ->
     Forall (is_digit 10) (c :: ds) -> c <> "0"%char -> ~ starts (is_digit 10) rest ->
     get_integer (reader_of t) s n d = long_range (apply_sign sg (value 10 (c :: ds)))) /\
  (forall ds, get_text (reader_of t) s n [] = ws ++ render_sign sg ++ ("0"%char :: ds) ++ rest ->
     Forall (is_digit 8) ds -> ~ starts (is_digit 8) rest ->
     ~ starts (fun c => c = "x"%char \/ c = "X"%char) rest ->
     get_integer (reader_of t) s n d = long_range (apply_sign sg (value 8 ds))) /\
  (forall x h hs, get_text (reader_of t) s n [] = ws ++ render_sign sg ++ ("0"%char :: x :: h :: hs) ++ rest ->
     x = "x"%char \/ x = "X"%char -> Forall (is_digit 16) (h :: hs) -> ~ starts (is_digit 16) rest ->
     get_integer (reader_of t) s n d = long_range (apply_sign sg (value 16 (h :: hs)))).
Proof.
  intros t s n d ws sg rest F.
  assert (Sg : forall c r, is_digit 10 c ->
     sign (skip_space (ws ++ render_sign sg ++ c :: r)) = (match sg with Minus => true | _ => false end, c :: r)).
  { intros c r D. rewrite skip_spaces; auto.
    - apply sign_render. exists c, r. split; auto. now apply digit_no_sign.
    - apply sign_head_nospace. apply head_no_sign. now left. }
  assert (L : forall v, Z.max (- 2 ^ 63) (Z.min (2 ^ 63 - 1)
     (if match sg with Minus => true | _ => false end then - v else v)) = long_range (apply_sign sg v)).
  { intros v. destruct sg; reflexivity. }
  assert (D0 : is_digit 10 "0") by (apply is_digit_10; reflexivity).
  split; [|split].
  - intros c ds E Fd N0 Nr. rewrite get_integer_strtol, E. unfold strtol0.
    cbn [app]. inversion Fd as [|? ? Dc Fds]; subst. rewrite Sg by exact Dc. cbv zeta.
    replace (Ascii.eqb c "0") with false by (symmetry; now apply Ascii.eqb_neq).
    pose proof Dc as Dc'. apply (is_digit_some 10 c) in Dc'; [|auto]. destruct Dc' as [v ->].
    change (c :: ds ++ rest) with ((c :: ds) ++ rest). rewrite digits_run by auto. cbn [fst].
    rewrite Z.mul_0_l, Z.add_0_l. apply L.
  - intros ds E Fd Nr Nx. rewrite get_integer_strtol, E. unfold strtol0.
    cbn [app]. rewrite Sg by exact D0. cbv zeta. rewrite Ascii.eqb_refl.
    assert (V : fst (fst (digits 8 0 0 ("0"%char :: ds ++ rest))) = value 8 ds).
    { change ("0"%char :: ds ++ rest) with (("0"%char :: ds) ++ rest).
      rewrite digits_run; auto.
      constructor; auto. exists 0. split; [reflexivity|lia]. }
    rewrite V.
    assert (X : match ds ++ rest with
                | x :: h :: q => (Ascii.eqb x "x" || Ascii.eqb x "X") = false
                | _ => True end).
    { destruct ds as [|x ds].
      - cbn [app]. destruct rest as [|x [|h q]]; auto.
        destruct (Ascii.eqb x "x") eqn:E1; [apply Ascii.eqb_eq in E1; exfalso; apply Nx; exists x, (h :: q); auto|].
        destruct (Ascii.eqb x "X") eqn:E2; [apply Ascii.eqb_eq in E2; exfalso; apply Nx; exists x, (h :: q); auto|].
        reflexivity.
      - cbn [app]. destruct (ds ++ rest); auto. inversion Fd as [|? ? Dx Fds]; subst.
        apply (is_digit_some 8 x) in Dx; [|auto]. destruct Dx as [v Dx].
        destruct (Ascii.eqb x "x") eqn:E1; [apply Ascii.eqb_eq in E1; subst; discriminate|].
        destruct (Ascii.eqb x "X") eqn:E2; [apply Ascii.eqb_eq in E2; subst; discriminate|].
        reflexivity. }
    destruct (ds ++ rest) as [|x [|h q]]; [apply L|apply L|]. rewrite X. cbn [andb]. apply L.
  - intros x h hs E Hx Fd Nr. rewrite get_integer_strtol, E. unfold strtol0.
    cbn [app]. rewrite Sg by exact D0. cbv zeta. rewrite Ascii.eqb_refl.
    assert (X : (Ascii.eqb x "x" || Ascii.eqb x "X") = true) by (destruct Hx as [-> | ->]; reflexivity).
    rewrite X. inversion Fd as [|? ? Dh Fds]; subst.
    apply (is_digit_some 16 h) in Dh; [|auto]. destruct Dh as [v Dh]. rewrite Dh. cbn [andb].
    change (h :: hs ++ rest) with ((h :: hs) ++ rest). rewrite digits_run by auto. cbn [fst].
    rewrite Z.mul_0_l, Z.add_0_l. apply L.
Qed.

(** Blanks, a sign, then a digit, a point and a digit, or one of the words
    inf... and nan... in any case. *)
Definition starts_real (t : text) : Prop :=
  exists ws s r, t = ws ++ render_sign s ++ r /\ Forall space ws /\
    ((exists c q, r = c :: q /\ is_digit 10 c) \/
     (exists c q, r = "."%char :: c :: q /\ is_digit 10 c) \/
     (exists a b c q, r = a :: b :: c :: q /\
        (same_letters [a; b; c] (tx "inf") \/ same_letters [a; b; c] (tx "nan")))).

Lemma dec_float_none : forall u, dec_float u = None <->
  ~ ((exists c q, u = c :: q /\ is_digit 10 c) \/ (exists c q, u = "."%char :: c :: q /\ is_digit 10 c)).
Proof.
  assert (Pos : forall t acc n a m q, digits 10 acc n t = (a, m, q) -> n <= m).
  { induction t as [|c t IH]; intros acc n a m q E; simpl in E; [inversion E; lia|].
    destruct (digit 10 c); [apply IH in E; lia|inversion E; lia]. }
  assert (Some_ : forall m1 n1' m2 n2' r2, n1' + n2' <> 0 ->
    (if n1' + n2' =? 0 then None
     else match r2 with
       | c :: q => if Ascii.eqb c "e" || Ascii.eqb c "E" then
           let '(neg, q1) := sign q in let '(x, nx, q2) := digits 10 0 0 q1 in
           if nx =? 0 then Some (m2, - n2', r2) else Some (m2, (if neg then - x else x) - n2', q2)
         else Some (m2, - n2', r2)
       | [] => Some (m2, - n2', r2) end) <> (None : option (Z * Z * text)) /\ m1 = m1 :> Z).
  { intros m1 n1' m2 n2' r2 K. split; auto. apply Z.eqb_neq in K. rewrite K.
    destruct r2 as [|c q]; [discriminate|]. destruct (_ || _); [|discriminate].
    destruct (sign q) as [neg q1]. destruct (digits 10 0 0 q1) as [[x nx] q2]. destruct (nx =? 0); discriminate. }
  intros u. split.
  - intros E C. unfold dec_float in E.
    destruct C as [(c & q & -> & D)|(c & q & -> & D)].
    + destruct (digits 10 0 0 (c :: q)) as [[m1 k1] r1] eqn:E1.
      assert (K1 : 1 <= k1).
      { cbn [digits] in E1. apply (is_digit_some 10 c) in D; [|auto]. destruct D as [v D].
        rewrite D in E1. apply Pos in E1. lia. }
      destruct (frac_part m1 r1) as [[m2 k2] r2] eqn:E2.
      assert (K2 : 0 <= k2).
      { unfold frac_part in E2. destruct r1 as [|d r1]; [inversion E2; lia|].
        destruct (Ascii.eqb d "."); [apply Pos in E2; lia|inversion E2; lia]. }
      destruct (Some_ m1 k1 m2 k2 r2) as [X _]; [lia|]. exact (X E).
    + cbn [digits] in E. change (digit 10 ".") with (@None Z) in E. cbn [frac_part] in E.
      rewrite Ascii.eqb_refl in E.
      destruct (digits 10 0 0 (c :: q)) as [[m2 k2] r2] eqn:E2.
      assert (K2 : 1 <= k2).
      { cbn [digits] in E2. apply (is_digit_some 10 c) in D; [|auto]. destruct D as [v D].
        rewrite D in E2. apply Pos in E2. lia. }
      destruct (Some_ 0 0 m2 k2 r2) as [X _]; [lia|]. exact (X E).
  - intros N. unfold dec_float.
    assert (E1 : digits 10 0 0 u = (0, 0, u)).
    { destruct u as [|c q]; [reflexivity|]. cbn [digits]. rewrite not_digit_none; auto.
      intros D. apply N. left. eauto. }
    rewrite E1.
    assert (E2 : exists r, frac_part 0 u = (0, 0, r)).
    { destruct u as [|c q]; [eexists; reflexivity|]. cbn [frac_part].
      destruct (Ascii.eqb c ".") eqn:Ec; [|eexists; reflexivity].
      apply Ascii.eqb_eq in Ec. subst c. destruct q as [|d q]; [eexists; reflexivity|].
      cbn [digits]. rewrite not_digit_none; auto; [eexists; reflexivity|].
      intros D. apply N. right. eauto. }
    destruct E2 as [r ->]. reflexivity.
Qed.

Lemma special_starts : forall u, special_form u = true ->
  (exists c q, u = c :: q /\ is_digit 10 c) \/
  (exists a b c q, u = a :: b :: c :: q /\
     (same_letters [a; b; c] (tx "inf") \/ same_letters [a; b; c] (tx "nan"))).
Proof.
  intros u E. unfold special_form in E.
  destruct u as [|a [|b [|c q]]]; try discriminate. cbn [lower map] in E.
  apply orb_prop in E. destruct E as [E|E].
  - right. exists a, b, c, q. split; auto. apply orb_prop in E. destruct E as [E|E].
    + left. apply teqb_eq in E. exact E.
    + right. apply teqb_eq in E. exact E.
  - left. apply andb_prop in E. destruct E as [E _]. apply teqb_eq in E. inversion E as [[Ea Eb]].
    exists a, (b :: c :: q). split; auto. apply is_digit_10.
    destruct a as [[] [] [] [] [] [] [] []]; try reflexivity; discriminate.
Qed.

Lemma starts_special : forall a b c q,
  same_letters [a; b; c] (tx "inf") \/ same_letters [a; b; c] (tx "nan") -> special_form (a :: b :: c :: q) = true.
Proof.
  intros a b c q [E|E]; unfold special_form; cbn [lower map]; unfold same_letters in E; cbn [map] in E;
    rewrite E; cbn; reflexivity.
Qed.

Lemma letter_head : forall a b c, same_letters [a; b; c] (tx "inf") \/ same_letters [a; b; c] (tx "nan") ->
  a <> "-"%char /\ a <> "+"%char /\ isspace a = false.
Proof.
  intros a b c E. assert (Ea : tolower a = "i"%char \/ tolower a = "n"%char).
  { destruct E as [E|E]; unfold same_letters in E; cbn in E; inversion E; auto. }
  destruct a as [[] [] [] [] [] [] [] []]; try (split; [discriminate|split; [discriminate|reflexivity]]);
    destruct Ea as [Ea|Ea]; vm_compute in Ea; discriminate Ea.
Qed.

Lemma strtod_none : forall {T} `{Num T} special t, strtod special t = None <-> ~ starts_real t.
Proof.
  intros T HT special t. split.
  - intros E (ws & s & r & -> & F & C).
    assert (Hh : exists c q, r = c :: q /\ c <> "-"%char /\ c <> "+"%char /\ isspace c = false).
    { destruct C as [(c & q & -> & D)|[(c & q & -> & D)|(a & b & c & q & -> & D)]].
      - exists c, q. split; auto. apply head_no_sign. now left.
      - eexists _, _. split; [reflexivity|]. apply head_no_sign. now right.
      - eexists _, _. split; [reflexivity|]. eapply letter_head. exact D. }
    destruct Hh as (c & q & Er & N1 & N2 & N3).
    unfold strtod in E. rewrite skip_spaces in E; auto.
    2: { rewrite Er. now apply sign_head_nospace. }
    rewrite sign_render in E by (exists c, q; auto).
    destruct (special_form r) eqn:Sf; [discriminate|].
    destruct (dec_float r) as [[[m e] q']|] eqn:Ed; [discriminate|].
    apply dec_float_none in Ed. apply Ed.
    destruct C as [C|[C|(a & b & c' & q' & -> & D)]]; auto.
    rewrite (starts_special a b c' q' D) in Sf. discriminate.
  - intros N. unfold strtod.
    destruct (skip_space_split t) as (ws & F & E & H).
    destruct (sign_split (skip_space t)) as (s & Es & Ef).
    destruct (sign (skip_space t)) as [neg u]. cbn [fst snd] in *.
    assert (N' : ~ ((exists c q, u = c :: q /\ is_digit 10 c) \/
     (exists c q, u = "."%char :: c :: q /\ is_digit 10 c) \/
     (exists a b c q, u = a :: b :: c :: q /\
        (same_letters [a; b; c] (tx "inf") \/ same_letters [a; b; c] (tx "nan"))))).
    { intros C. apply N. exists ws, s, u. rewrite <- Es, <- E. auto. }
    destruct (special_form u) eqn:Sf.
    { exfalso. apply N'. apply special_starts in Sf. tauto. }
    assert (Dn : dec_float u = None) by (apply dec_float_none; tauto).
    now rewrite Dn.
Qed.

Lemma get_real_strtod : forall {T} `{Num T} special t s n (d : T), get_real special (reader_of t) s n d =
  match strtod special (get_text (reader_of t) s n []) with Some x => x | None => d end.
Proof.
  intros. unfold get_real, c_str. now rewrite (cstr_no_nul _ (reader_no_nul t s n)).
Qed.

(** Two different defaults show whether the default is used. *)
Theorem C68_real_default : forall {T} `{Num T} special t s n (d1 d2 : T), d1 <> d2 ->
  (get_real special (reader_of t) s n d1 = d1 /\ get_real special (reader_of t) s n d2 = d2) <->
  ~ starts_real (get_text (reader_of t) s n []).
Proof.
  intros T HT special t s n d1 d2 Nd. rewrite <- (strtod_none special). rewrite !get_real_strtod.
  destruct (strtod special (get_text (reader_of t) s n [])); split; auto.
  - intros [A B]. congruence.
  - discriminate.
Qed.

Theorem C68_real_values : forall {T} `{Num T} special t s n (d : T) ws sg x rest,
  Forall space ws -> proper x -> ~ starts continues rest ->
  get_text (reader_of t) s n [] = ws ++ render_sign sg ++ render x ++ rest ->
  get_real special (reader_of t) s n d = number sg x.
Proof.
  intros T HT special t s n d ws sg x rest F P N E. rewrite get_real_strtod, E. unfold strtod.
  destruct (render_head x P) as (c & r & Er & Hc).
  pose proof (head_no_sign c Hc) as (N1 & N2 & N3).
  rewrite skip_spaces; auto.
  2: { rewrite Er. cbn [app]. now apply sign_head_nospace. }
  rewrite sign_render by (exists c, (r ++ rest); rewrite Er; auto).
  assert (Sf : special_form (render x ++ rest) = false).
  { destruct (special_form (render x ++ rest)) eqn:Sf; auto. exfalso.
    assert (Hx : exists a b q, render x ++ rest = a :: b :: q /\ tolower b = "x"%char).
    { unfold special_form in Sf.
      destruct (render x ++ rest) as [|a [|b [|e q]]] eqn:Ea; try discriminate. cbn [lower map] in Sf.
      rewrite Er in Ea. cbn [app] in Ea. inversion Ea; subst a.
      apply orb_prop in Sf. destruct Sf as [Sf|Sf].
      - exfalso. assert (K : tolower c = "i"%char \/ tolower c = "n"%char).
        { apply orb_prop in Sf. destruct Sf as [Sf|Sf]; apply teqb_eq in Sf; inversion Sf; auto. }
        destruct Hc as [D | ->]; [|destruct K; discriminate].
        apply is_digit_10 in D.
        destruct c as [[] [] [] [] [] [] [] []]; try discriminate D; destruct K as [K|K]; discriminate K.
      - apply andb_prop in Sf. destruct Sf as [Sf _]. apply teqb_eq in Sf. inversion Sf.
        exists c, b, (e :: q). auto. }
    destruct Hx as (a & b & q & Ea & Hb).
    assert (Xb : b = "x"%char \/ b = "X"%char).
    { destruct b as [[] [] [] [] [] [] [] []]; vm_compute in Hb; try discriminate Hb; auto. }
    (* the second character is in the numeral (no x there) or starts the rest *)
    assert (NX : Forall (fun c => c <> "x"%char /\ c <> "X"%char) (render x)).
    { destruct P as (P1 & P2 & _ & P4).
      assert (Dg : forall ds, Forall (is_digit 10) ds -> Forall (fun c => c <> "x"%char /\ c <> "X"%char) ds).
      { intros ds Fd. eapply Forall_impl; [|exact Fd]. intros k Dk. apply is_digit_10 in Dk.
        split; intros ->; discriminate. }
      unfold render. apply Forall_app. split; [auto|]. apply Forall_app. split.
      - unfold frac_digits in P2. destruct (fp x); [|constructor]. cbn [render_frac].
        constructor; [split; discriminate|]. apply Dg. exact P2.
      - destruct (ex x) as [[[k' sg'] ds]|]; [|constructor]. cbn [render_exp].
        apply Forall_app. split; [destruct k'; (constructor; [split; discriminate|constructor])|].
        apply Forall_app. split; [destruct sg'; repeat constructor; discriminate|]. apply Dg. tauto. }
    rewrite Er in Ea, NX. cbn [app] in Ea. inversion Ea; subst a. destruct r as [|b' r].
    - cbn [app] in *. subst rest. apply N. exists b, q. split; auto. unfold continues. tauto.
    - cbn [app] in *. match goal with K : b' :: r ++ rest = b :: q |- _ => inversion K; subst b' end.
      inversion NX as [|? ? _ NX2]; subst. inversion NX2 as [|? ? [A B] _]; subst. tauto. }
  rewrite Sf. rewrite dec_float_render by assumption. destruct sg; reflexivity.
Qed.

Theorem C68_booleans : forall r s n d,
  let v := get_text r s n [] in
  let yes := Exists (same_letters v) [tx "true"; tx "yes"; tx "on"; tx "1"] in
  let no := Exists (same_letters v) [tx "false"; tx "no"; tx "off"; tx "0"] in
  (yes -> get_boolean r s n d = true) /\ (no -> get_boolean r s n d = false) /\
  (~ yes -> ~ no -> get_boolean r s n d = d).
Proof.
  intros r s n d v yes no. unfold get_boolean. fold v.
  assert (L : forall w, lower w = w -> (same_letters v w <-> teqb (lower v) w = true)).
  { intros w Hw. rewrite teqb_eq. unfold same_letters. fold (lower v). fold (lower w). now rewrite Hw. }
  assert (Y : yes <-> teqb (lower v) (tx "true") || teqb (lower v) (tx "yes") || teqb (lower v) (tx "on") || teqb (lower v) (tx "1") = true).
  { unfold yes. rewrite !orb_true_iff. rewrite <- !L by reflexivity. split.
    - intros E. inversion E as [? ? K|? ? E1]; subst; [tauto|]. inversion E1 as [? ? K|? ? E2]; subst; [tauto|].
      inversion E2 as [? ? K|? ? E3]; subst; [tauto|]. inversion E3 as [? ? K|? ? E4]; subst; [tauto|]. inversion E4.
    - intros [[[K|K]|K]|K]; [apply Exists_cons_hd|apply Exists_cons_tl, Exists_cons_hd
        |apply Exists_cons_tl, Exists_cons_tl, Exists_cons_hd|apply Exists_cons_tl, Exists_cons_tl, Exists_cons_tl, Exists_cons_hd]; exact K. }
  assert (No : no <-> teqb (lower v) (tx "false") || teqb (lower v) (tx "no") || teqb (lower v) (tx "off") || teqb (lower v) (tx "0") = true).
  { unfold no. rewrite !orb_true_iff. rewrite <- !L by reflexivity. split.
    - intros E. inversion E as [? ? K|? ? E1]; subst; [tauto|]. inversion E1 as [? ? K|? ? E2]; subst; [tauto|].
      inversion E2 as [? ? K|? ? E3]; subst; [tauto|]. inversion E3 as [? ? K|? ? E4]; subst; [tauto|]. inversion E4.
    - intros [[[K|K]|K]|K]; [apply Exists_cons_hd|apply Exists_cons_tl, Exists_cons_hd
        |apply Exists_cons_tl, Exists_cons_tl, Exists_cons_hd|apply Exists_cons_tl, Exists_cons_tl, Exists_cons_tl, Exists_cons_hd]; exact K. }
  rewrite Y, No. cbv zeta. split; [|split].
  - intros ->. reflexivity.
  - intros E. rewrite E.
    destruct (teqb (lower v) (tx "true") || teqb (lower v) (tx "yes") || teqb (lower v) (tx "on") || teqb (lower v) (tx "1")) eqn:B;
      [|reflexivity]. exfalso.
    rewrite !orb_true_iff, !teqb_eq in E, B.
    destruct E as [[[E|E]|E]|E], B as [[[B|B]|B]|B]; rewrite E in B; discriminate B.
  - intros A B. apply not_true_is_false in A. apply not_true_is_false in B. now rewrite A, B.
Qed.

Theorem C68_strings : forall r s n d,
  get_string r s n d = match get_text r s n [] with [] => d | v => v end /\
  ((has_value r s n = false \/ get_text r s n d = []) -> get_string r s n d = d) /\
  (has_value r s n = true -> get_text r s n d <> [] -> get_string r s n d = get_text r s n d).
Proof.
  intros r s n d. split; [reflexivity|]. unfold get_string, get_text, has_value.
  destruct (find (make_key s n) (r_values r)) as [v|]; split.
  - intros [E| ->]; [discriminate|reflexivity].
  - intros _ N. destruct v; [congruence|reflexivity].
  - reflexivity.
  - discriminate.
Qed.

(** ** Concrete cases *)
Definition one_value (v : string) : reader :=
  reader_of (tx "[a]" ++ newline :: tx "v = " ++ tx v ++ [newline]).

Section Cases.
Context {T : Type} `{Num T}.

Example C67_case :
  get_vector (one_value "[0 0 10.0e-6]") (tx "a") (tx "v") vzero
    = Ok (mkV (nlit 0 0) (nlit 0 0) (nlit 100 (-7)) : vec T) /\
  get_vector (one_value "[1,2,3]") (tx "a") (tx "v") vzero = Ok (mkV (nlit 123 0) n0 n0 : vec T) /\
  get_vector (one_value "1E5") (tx "a") (tx "v") vzero = Ok (mkV (nlit 15 0) n0 n0 : vec T) /\
  get_vector (one_value "1 2 3 4") (tx "a") (tx "v") vzero = (Exit 1 : res (vec T)) /\
  get_vector (one_value "[0.1,0.2,0.3]") (tx "a") (tx "v") vzero
    = Ok (mkV (nlit 10 (-2)) (nlit 20 (-2)) (nlit 3 (-1)) : vec T) /\
  get_vector (one_value "[1,-2,3]") (tx "a") (tx "v") vzero
    = Ok (mkV (nlit 1 0) (nneg (nlit 23 0)) n0 : vec T) /\
  get_vector (one_value "1 2") (tx "a") (tx "w") (mkV n1 n1 n1) = Ok (vzero : vec T).
Proof. repeat split; vm_compute; reflexivity. Qed.

Example C67_hypotheses :
  filter vector_char (tx "[0 0 10.0e-6]") =
  spaced [(0%nat, NoSign, mkNumeral (tx "0") None None); (1%nat, NoSign, mkNumeral (tx "0") None None);
          (1%nat, NoSign, mkNumeral (tx "10") (Some (tx "0")) (Some (SmallE, Minus, tx "6")))] 0.
Proof. vm_compute. reflexivity. Qed.

Example C68_case : forall special : text -> T,
  get_integer (one_value "  42abc") (tx "a") (tx "v") 7 = 42 /\
  get_integer (one_value "010") (tx "a") (tx "v") 7 = 8 /\
  get_integer (one_value "-0x1F") (tx "a") (tx "v") 7 = -31 /\
  get_integer (one_value "99999999999999999999") (tx "a") (tx "v") 7 = 2 ^ 63 - 1 /\
  get_integer (one_value "x1") (tx "a") (tx "v") 7 = 7 /\
  get_real special (one_value "2.00e+14") (tx "a") (tx "v") n0 = nlit 200 12 /\
  get_real special (one_value "-.5") (tx "a") (tx "v") n0 = nneg (nlit 5 (-1)) /\
  get_real special (one_value "e5") (tx "a") (tx "v") n1 = n1 /\
  get_boolean (one_value "Yes") (tx "a") (tx "v") false = true /\
  get_boolean (one_value "2") (tx "a") (tx "v") true = true /\
  get_string (one_value "") (tx "a") (tx "v") (tx "d") = tx "d".
Proof. intros. repeat split; vm_compute; reflexivity. Qed.
End Cases.

Print Assumptions C67_spaced_numbers.
Print Assumptions C67_missing_is_zero.
Print Assumptions C67_commas_join_digits.
Print Assumptions C67_capital_exponent_dropped.
Print Assumptions C67_total.
Print Assumptions C68_integer_default.
Print Assumptions C68_integer_values.
Print Assumptions C68_real_default.
Print Assumptions C68_real_values.
Print Assumptions C68_booleans.
Print Assumptions C68_strings.
