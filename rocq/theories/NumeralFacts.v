(** * The number readers on written numbers *)
From Coq Require Import String ZArith List Bool Ascii Lia NArith.
From Verif Require Import Num Outcome Vec Text Ini IniReader IniFacts SpecNumeral.
Import ListNotations.
Local Open Scope Z_scope.

Ltac all_chars c := destruct c as [[] [] [] [] [] [] [] []]; vm_compute; reflexivity.

Definition below (b : Z) (o : option Z) : option Z :=
  match o with Some v => if v <? b then Some v else None | None => None end.

Lemma digit16 : forall c, digit 16 c = digit_value c.
Proof. intros c. all_chars c. Qed.
Lemma digit10 : forall c, digit 10 c = below 10 (digit_value c).
Proof. intros c. all_chars c. Qed.
Lemma digit8 : forall c, digit 8 c = below 8 (digit_value c).
Proof. intros c. all_chars c. Qed.
Lemma isdigit_digit : forall c, isdigit c = match digit 10 c with Some _ => true | None => false end.
Proof. intros c. all_chars c. Qed.
Lemma digit_lt16 : forall c v, digit_value c = Some v -> 0 <= v < 16.
Proof.
  intros c v E. rewrite <- digit16 in E. unfold digit in E. pose proof (code_range c).
  match type of E with (if ?x <? 16 then _ else _) = _ => destruct (x <? 16) eqn:L; [|discriminate] end.
  inversion E; subst. apply Z.ltb_lt in L. split; [|exact L].
  destruct ((48 <=? code c) && (code c <=? 57)) eqn:E1.
  { apply andb_prop in E1. destruct E1 as [E1 _]. apply Z.leb_le in E1. lia. }
  destruct ((97 <=? code c) && (code c <=? 122)) eqn:E2.
  { apply andb_prop in E2. destruct E2 as [E2 _]. apply Z.leb_le in E2. lia. }
  destruct ((65 <=? code c) && (code c <=? 90)) eqn:E3.
  { apply andb_prop in E3. destruct E3 as [E3 _]. apply Z.leb_le in E3. lia. }
  lia.
Qed.

Lemma digit_some : forall b c v, (b = 8 \/ b = 10 \/ b = 16) ->
  (digit b c = Some v <-> digit_value c = Some v /\ v < b).
Proof.
  intros b c v Hb. destruct Hb as [-> | [-> | ->]].
  - rewrite digit8. unfold below. destruct (digit_value c) as [w|].
    + destruct (w <? 8) eqn:L; [apply Z.ltb_lt in L|apply Z.ltb_ge in L]; split.
      * intros E. inversion E; subst. auto.
      * tauto.
      * discriminate.
      * intros [E K]. inversion E; subst. lia.
    + split; [discriminate|intros [E _]; discriminate].
  - rewrite digit10. unfold below. destruct (digit_value c) as [w|].
    + destruct (w <? 10) eqn:L; [apply Z.ltb_lt in L|apply Z.ltb_ge in L]; split.
      * intros E. inversion E; subst. auto.
      * tauto.
      * discriminate.
      * intros [E K]. inversion E; subst. lia.
    + split; [discriminate|intros [E _]; discriminate].
  - rewrite digit16. split.
    + intros E. split; auto. now apply digit_lt16 in E.
    + tauto.
Qed.

Lemma is_digit_some : forall b c, (b = 8 \/ b = 10 \/ b = 16) ->
  (is_digit b c <-> exists v, digit b c = Some v).
Proof.
  intros b c Hb. unfold is_digit. split; intros [v E]; exists v.
  - now apply digit_some.
  - now apply digit_some in E.
Qed.

Lemma is_digit_10 : forall c, is_digit 10 c <-> isdigit c = true.
Proof.
  intros c. rewrite is_digit_some by auto. rewrite isdigit_digit.
  destruct (digit 10 c); split; intros E; eauto; try discriminate. destruct E; discriminate.
Qed.

Lemma not_digit_none : forall b c, (b = 8 \/ b = 10 \/ b = 16) -> ~ is_digit b c -> digit b c = None.
Proof.
  intros b c Hb N. destruct (digit b c) eqn:E; auto. exfalso. apply N. apply is_digit_some; eauto.
Qed.

(** The text does not start with a character satisfying [P]. *)
Definition starts (P : ascii -> Prop) (t : text) : Prop := exists c r, t = c :: r /\ P c.

Lemma digits_run : forall b ds r acc n, (b = 8 \/ b = 10 \/ b = 16) ->
  Forall (is_digit b) ds -> ~ starts (is_digit b) r ->
  digits b acc n (ds ++ r) = (acc * b ^ Z.of_nat (length ds) + value b ds, n + Z.of_nat (length ds), r).
Proof.
  intros b ds r acc n Hb F N. revert acc n. induction F as [|c ds Hc F IH]; intros acc n; cbn [app digits].
  - simpl length. simpl value. rewrite Z.pow_0_r.
    replace (acc * 1 + 0) with acc by lia. replace (n + Z.of_nat 0) with n by lia.
    destruct r as [|c r]; [reflexivity|]. cbn [digits]. rewrite not_digit_none; auto.
    intros K. apply N. exists c, r. auto.
  - pose proof Hc as Hc'. apply (is_digit_some b c Hb) in Hc'. destruct Hc' as [v Ev]. rewrite Ev.
    rewrite IH. cbn [value length]. apply (digit_some b c v Hb) in Ev. destruct Ev as [Ev _]. rewrite Ev.
    rewrite Nat2Z.inj_succ, Z.pow_succ_r by lia. f_equal; f_equal; ring.
Qed.

Lemma value_app : forall b x y, value b (x ++ y) = value b x * b ^ Z.of_nat (length y) + value b y.
Proof.
  intros b x y. induction x as [|c x IH]; cbn [app value]; [lia|].
  rewrite IH, app_length, Nat2Z.inj_add, Z.pow_add_r by lia. ring.
Qed.

Lemma not_starts_nil : forall P, ~ starts P [].
Proof. intros P (c & r & E & _). discriminate. Qed.
Lemma not_starts_cons : forall (P : ascii -> Prop) c r, ~ P c -> ~ starts P (c :: r).
Proof. intros P c r N (c' & r' & E & K). inversion E; subst. contradiction. Qed.

Lemma nodigit_char : forall b c, (b = 8 \/ b = 10 \/ b = 16) -> digit b c = None -> ~ is_digit b c.
Proof. intros b c Hb E K. apply (is_digit_some b c Hb) in K. destruct K as [v K]. congruence. Qed.

(** Characters that would continue a decimal number. *)
Definition continues (c : ascii) : Prop :=
  is_digit 10 c \/ c = "."%char \/ c = "e"%char \/ c = "E"%char \/ c = "x"%char \/ c = "X"%char.

Lemma sign_digit : forall c r, is_digit 10 c -> sign (c :: r) = (false, c :: r).
Proof.
  intros c r D. simpl.
  destruct (Ascii.eqb c "-") eqn:E1.
  { apply Ascii.eqb_eq in E1. subst. apply is_digit_10 in D. discriminate. }
  destruct (Ascii.eqb c "+") eqn:E2; [|reflexivity].
  apply Ascii.eqb_eq in E2. subst. apply is_digit_10 in D. discriminate.
Qed.

Lemma sign_render : forall s t, (exists c r, t = c :: r /\ c <> "-"%char /\ c <> "+"%char) ->
  sign (render_sign s ++ t) = (match s with Minus => true | _ => false end, t).
Proof.
  intros s t (c & r & -> & N1 & N2). destruct s; simpl; auto.
  apply Ascii.eqb_neq in N1. apply Ascii.eqb_neq in N2. now rewrite N1, N2.
Qed.

Lemma digit_no_sign : forall c, is_digit 10 c -> c <> "-"%char /\ c <> "+"%char.
Proof. intros c D. split; intros ->; apply is_digit_10 in D; discriminate. Qed.

Lemma exp_start_nodigit : forall e rest, ~ starts continues rest ->
  ~ starts (is_digit 10) (render_exp e ++ rest).
Proof.
  intros e rest N. destruct e as [[[[|] s] ds]|]; simpl.
  - apply not_starts_cons. apply nodigit_char; [auto|reflexivity].
  - apply not_starts_cons. apply nodigit_char; [auto|reflexivity].
  - intros (c & r & E & K). apply N. exists c, r. split; auto. left. exact K.
Qed.

Lemma dec_float_render : forall n rest, proper n -> ~ starts continues rest ->
  dec_float (render n ++ rest) = Some (mantissa n, exponent n, rest).
Proof.
  intros n rest (Hi & Hf & Hne & He) N.
  assert (E1 : digits 10 0 0 (render n ++ rest) =
               (value 10 (ip n), Z.of_nat (length (ip n)), render_frac (fp n) ++ render_exp (ex n) ++ rest)).
  { unfold render. rewrite <- !app_assoc. rewrite digits_run; auto.
    destruct (fp n) as [ds|]; simpl render_frac; cbn [app].
    - apply not_starts_cons. apply nodigit_char; [auto|reflexivity].
    - now apply exp_start_nodigit. }
  assert (E2 : frac_part (value 10 (ip n)) (render_frac (fp n) ++ render_exp (ex n) ++ rest) =
               (mantissa n, Z.of_nat (length (frac_digits n)), render_exp (ex n) ++ rest)).
  { unfold mantissa, frac_digits in *. destruct (fp n) as [ds|]; simpl render_frac.
    - cbn [app frac_part]. rewrite Ascii.eqb_refl. rewrite digits_run; auto.
      + rewrite value_app. reflexivity.
      + now apply exp_start_nodigit.
    - cbn [app]. rewrite app_nil_r. simpl length.
      destruct (render_exp (ex n) ++ rest) as [|c r] eqn:E; [reflexivity|].
      cbn [frac_part]. destruct (Ascii.eqb c ".") eqn:Ec; [|reflexivity].
      apply Ascii.eqb_eq in Ec. subst c. exfalso.
      destruct (ex n) as [[[[|] s] ds]|]; simpl in E; [inversion E|inversion E|].
      apply N. exists "."%char, r. split; auto. right. now left. }
  unfold dec_float. rewrite E1, E2.
  assert (Z0 : (Z.of_nat (length (ip n)) + Z.of_nat (length (frac_digits n)) =? 0) = false).
  { apply Z.eqb_neq. intros K. apply Hne.
    destruct (ip n); [|cbn [length] in K; lia]. destruct (frac_digits n); [reflexivity|cbn [length] in K; lia]. }
  rewrite Z0. unfold exponent. destruct (ex n) as [[[k s] ds]|] eqn:Ex.
  - destruct He as [Hd Hd'].
    assert (EX : exists c, render_exp (Some (k, s, ds)) ++ rest = c :: render_sign s ++ ds ++ rest /\ (Ascii.eqb c "e" || Ascii.eqb c "E")%bool = true)
      by (destruct k; cbn [render_exp render_letter]; rewrite <- !app_assoc; eexists; split; reflexivity).
    destruct EX as (c0 & -> & EX). cbv beta iota. rewrite EX.
    rewrite sign_render.
    2: { destruct ds as [|c ds]; [congruence|]. inversion Hd; subst.
         exists c, (ds ++ rest). split; [reflexivity|]. now apply digit_no_sign. }
    rewrite digits_run; auto.
    2: { intros (c & r & E & K). apply N. exists c, r. split; auto. left. exact K. }
    replace (0 + Z.of_nat (length ds) =? 0) with false.
    2: { symmetry. apply Z.eqb_neq. destruct ds; [congruence|cbn [length]; lia]. }
    replace (0 * 10 ^ Z.of_nat (length ds) + value 10 ds) with (value 10 ds) by lia.
    destruct s; reflexivity.
  - cbn [render_exp app]. replace (0 - Z.of_nat (length (frac_digits n))) with (- Z.of_nat (length (frac_digits n))) by lia.
    destruct rest as [|c r]; [reflexivity|].
    destruct (Ascii.eqb c "e") eqn:Ee.
    { apply Ascii.eqb_eq in Ee. subst. exfalso. apply N. exists "e"%char, r. split; auto. right. right. now left. }
    destruct (Ascii.eqb c "E") eqn:EE; [|reflexivity].
    apply Ascii.eqb_eq in EE. subst. exfalso. apply N. exists "E"%char, r. split; auto. right. right. right. now left.
Qed.

(** The first character of a proper numeral is a digit or the point. *)
Lemma render_head : forall n, proper n -> exists c r, render n = c :: r /\ (is_digit 10 c \/ c = "."%char).
Proof.
  intros n (Hi & Hf & Hne & _). unfold render.
  destruct (ip n) as [|c i] eqn:Ei.
  - unfold frac_digits in *. destruct (fp n) as [ds|] eqn:Ef.
    + eexists _, _. split; [reflexivity|]. now right.
    + simpl in Hne. congruence.
  - inversion Hi; subst. eexists _, _. split; [reflexivity|]. now left.
Qed.

Lemma head_no_sign : forall c, is_digit 10 c \/ c = "."%char -> c <> "-"%char /\ c <> "+"%char /\ isspace c = false.
Proof.
  intros c [D | ->].
  - pose proof (digit_no_sign c D) as [A B]. repeat split; auto.
    apply is_digit_10 in D. destruct c as [[] [] [] [] [] [] [] []]; try reflexivity; discriminate.
  - repeat split; discriminate.
Qed.

Lemma skip_blanks : forall k t, (exists c r, t = c :: r /\ isspace c = false) \/ t = [] ->
  skip_space (blanks k ++ t) = t.
Proof.
  intros k t H. unfold blanks. induction k as [|k IH]; cbn [repeat app].
  - destruct H as [(c & r & -> & E)| ->]; [|reflexivity]. simpl. now rewrite E.
  - simpl. exact IH.
Qed.

Lemma signed_head : forall s n, proper n -> exists c r, render_sign s ++ render n = c :: r /\ isspace c = false.
Proof.
  intros s n P. destruct (render_head n P) as (c & r & E & H). apply head_no_sign in H.
  destruct s; simpl.
  - exists c, r. tauto.
  - eexists _, _. split; reflexivity.
  - eexists _, _. split; reflexivity.
Qed.

(** ** Stream extraction *)
Lemma extract_digits : forall ds mant dec sci aftere t, Forall (is_digit 10) ds -> ds <> [] ->
  extract_chars mant dec sci aftere (ds ++ t) =
  let '(x, q) := extract_chars true dec sci false t in (ds ++ x, q).
Proof.
  induction ds as [|c ds IH]; intros mant dec sci aftere t F N; [congruence|].
  inversion F as [|? ? Hc F']; subst. cbn [app extract_chars].
  destruct (digit_no_sign c Hc) as [A B].
  replace (Ascii.eqb c "+") with false by (symmetry; now apply Ascii.eqb_neq).
  replace (Ascii.eqb c "-") with false by (symmetry; now apply Ascii.eqb_neq).
  cbn [orb]. rewrite andb_false_r. apply is_digit_10 in Hc. rewrite Hc.
  destruct ds as [|d ds].
  - cbn [app]. destruct (extract_chars true dec sci false t). reflexivity.
  - rewrite IH; auto; [|discriminate]. destruct (extract_chars true dec sci false t). reflexivity.
Qed.

(** the end of the text or white space *)
Definition ends (t : text) : Prop := t = [] \/ exists c r, t = c :: r /\ isspace c = true.
Lemma ends_blank : forall t, (t = [] \/ exists r, t = " "%char :: r) -> ends t.
Proof. intros t [-> | [r ->]]; [now left|right]. exists " "%char, r. split; reflexivity. Qed.

Lemma isspace_not : forall c, isspace c = true ->
  isdigit c = false /\ Ascii.eqb c "." = false /\ Ascii.eqb c "e" = false /\ Ascii.eqb c "E" = false.
Proof.
  intros c E. unfold isspace in E.
  assert (N : forall d, isspace d = false -> Ascii.eqb c d = false).
  { intros d D. apply Ascii.eqb_neq. intros ->. unfold isspace in D. congruence. }
  repeat split; try (apply N; reflexivity). unfold isdigit.
  apply orb_true_iff in E. rewrite andb_true_iff, Z.eqb_eq, !Z.leb_le in E. apply andb_false_iff. rewrite !Z.leb_gt. lia.
Qed.

Lemma extract_stop : forall mant dec sci t, ends t -> extract_chars mant dec sci false t = ([], t).
Proof.
  intros mant dec sci t [-> | (c & r & -> & E)]; [reflexivity|]. cbn [extract_chars andb].
  destruct (isspace_not c E) as (-> & -> & -> & ->). reflexivity.
Qed.

Lemma extract_exp : forall e dec t, ends t ->
  match e with None => True | Some (_, _, ds) => Forall (is_digit 10) ds /\ ds <> [] end ->
  extract_chars true dec false false (render_exp e ++ t) = (render_exp e, t).
Proof.
  intros e dec t Ht He. destruct e as [[[k s] ds]|]; [|now apply extract_stop].
  destruct He as [F N]. cbn [render_exp].
  assert (D : extract_chars true dec true true (ds ++ t) = (ds, t)
              /\ extract_chars true dec true false (ds ++ t) = (ds, t)).
  { split; rewrite extract_digits by assumption; rewrite extract_stop by exact Ht; now rewrite app_nil_r. }
  destruct D as [D1 D2].
  assert (LT : exists c, render_letter k = [c] /\ isdigit c = false /\ Ascii.eqb c "." = false /\ (Ascii.eqb c "e" || Ascii.eqb c "E")%bool = true)
    by (destruct k; eexists; repeat split; reflexivity).
  destruct LT as (c0 & -> & L1 & L2 & L3).
  cbn [app extract_chars]. rewrite L1, L2, L3. cbn [andb orb negb].
  destruct s; cbn [render_sign].
  - cbn [app]. now rewrite D1.
  - change (tx "+") with ["+"%char]. cbn [app extract_chars andb orb]. rewrite Ascii.eqb_refl. cbn [orb].
    now rewrite D2.
  - change (tx "-") with ["-"%char]. cbn [app extract_chars andb]. rewrite Ascii.eqb_refl. rewrite orb_true_r.
    now rewrite D2.
Qed.

Lemma extract_render : forall n t, proper n -> ends t ->
  extract_chars false false false false (render n ++ t) = (render n, t).
Proof.
  intros n t (Hi & Hf & Hne & He) Ht. unfold render. rewrite <- !app_assoc.
  assert (A : forall mant, (mant = true \/ frac_digits n <> []) ->
     extract_chars mant false false false (render_frac (fp n) ++ render_exp (ex n) ++ t) =
     (render_frac (fp n) ++ render_exp (ex n), t)).
  { intros mant Hm. unfold frac_digits in *. destruct (fp n) as [ds|]; cbn [render_frac].
    - change (tx ".") with ["."%char]. cbn [app extract_chars].
      change (isdigit ".") with false. rewrite Ascii.eqb_refl. cbn [andb negb].
      assert (D : extract_chars mant true false false (ds ++ render_exp (ex n) ++ t) = (ds ++ render_exp (ex n), t)).
      { destruct ds as [|c ds].
        - destruct Hm as [-> | Hm]; [|congruence]. cbn [app]. now rewrite extract_exp.
        - rewrite extract_digits; [|assumption|discriminate]. rewrite extract_exp by assumption. reflexivity. }
      now rewrite D.
    - cbn [app]. destruct Hm as [-> | Hm]; [|congruence]. now rewrite extract_exp. }
  destruct (ip n) as [|c i].
  - cbn [app]. rewrite A; [reflexivity|]. right. exact Hne.
  - rewrite extract_digits; [|assumption|discriminate].
    rewrite A by (now left). reflexivity.
Qed.

Lemma not_cont_nil : ~ starts continues [].
Proof. apply not_starts_nil. Qed.

Lemma skip_white : forall w t, Forall (fun c => isspace c = true) w ->
  (exists c r, t = c :: r /\ isspace c = false) \/ t = [] -> skip_space (w ++ t) = t.
Proof.
  intros w t F H. induction F as [|c w E F IH]; cbn [app].
  - destruct H as [(c & r & -> & E)| ->]; [|reflexivity]. cbn [skip_space]. now rewrite E.
  - cbn [skip_space]. now rewrite E.
Qed.

Lemma stream_number_white : forall {T} `{Num T} w s n t, Forall (fun c => isspace c = true) w -> proper n -> ends t ->
  stream_double (w ++ render_sign s ++ render n ++ t) = Some (number s n : T, t).
Proof.
  intros T HT w s n t W P Ht. unfold stream_double.
  rewrite skip_white by (auto; left; destruct (signed_head s n P) as (c & r & E & Hs); exists c, (r ++ t); split; auto;
       rewrite app_assoc, E; reflexivity).
  rewrite sign_render.
  2: { destruct (render_head n P) as (c & r & E & Hh). apply head_no_sign in Hh.
       exists c, (r ++ t). rewrite E. tauto. }
  rewrite extract_render by assumption.
  pose proof (dec_float_render n [] P not_cont_nil) as D. rewrite app_nil_r in D. rewrite D.
  destruct s; reflexivity.
Qed.

Lemma stream_number : forall {T} `{Num T} k s n t, proper n -> (t = [] \/ exists r, t = " "%char :: r) ->
  stream_double (blanks k ++ render_sign s ++ render n ++ t) = Some (number s n : T, t).
Proof.
  intros T HT k s n t P Ht. apply stream_number_white; [|assumption|now apply ends_blank].
  unfold blanks. apply Forall_forall. intros c H. apply repeat_spec in H. now subst.
Qed.

Lemma stream_blanks : forall {T} `{Num T} j, stream_double (T := T) (blanks j) = None.
Proof.
  intros T HT j. unfold stream_double.
  replace (blanks j) with (blanks j ++ []) by apply app_nil_r.
  rewrite skip_blanks by (now right). reflexivity.
Qed.

(** Every extraction takes at least one character. *)
Lemma extract_split : forall t mant dec sci aftere x q,
  extract_chars mant dec sci aftere t = (x, q) -> t = x ++ q.
Proof.
  induction t as [|c r IH]; intros mant dec sci aftere x q E; simpl in E; [now inversion E|].
  repeat match type of E with (if ?b then _ else _) = _ => destruct b end;
  try (match type of E with (let '(_, _) := ?e in _) = _ => destruct e as [x' q'] eqn:E' end;
       inversion E; subst; simpl; f_equal; eapply IH; exact E').
  now inversion E.
Qed.

Lemma stream_progress : forall {T} `{Num T} t (v : T) rest, stream_double t = Some (v, rest) ->
  (length rest < length t)%nat.
Proof.
  intros T HT t v rest E. unfold stream_double in E.
  assert (L1 : (length (skip_space t) <= length t)%nat).
  { clear. induction t as [|d t IH]; simpl; auto. destruct (isspace d); simpl; lia. }
  destruct (sign (skip_space t)) as [neg u] eqn:Es.
  assert (L2 : (length u <= length (skip_space t))%nat).
  { destruct (skip_space t) as [|c r]; simpl in Es; [inversion Es; auto|].
    destruct (Ascii.eqb c "-"); [inversion Es; subst; simpl; lia|].
    destruct (Ascii.eqb c "+"); inversion Es; subst; simpl; lia. }
  destruct (extract_chars false false false false u) as [x q] eqn:Ex.
  apply extract_split in Ex.
  destruct (dec_float x) as [[[m e] [|]]|] eqn:Ed; try discriminate. inversion E; subst.
  assert (x <> []).
  { intros ->. vm_compute in Ed. discriminate. }
  rewrite app_length in L2. destruct x; [congruence|]. simpl in L2. lia.
Qed.
