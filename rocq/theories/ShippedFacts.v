(** * Reading the decimal numbers of a text; comparing decimals *)
From Coq Require Import String ZArith Reals Lra Psatz List Bool Ascii Lia.
From Verif Require Import Num RNum Text SpecNumeral NumeralFacts SpecLoad SpecTable Shipped ShippedData.
Import ListNotations.
Local Open Scope Z_scope.

(** ** What [decimals] finds is what is written *)
Definition is_dec (x : entry) (d : dec) : Prop :=
  (d_neg d = true <-> fst x = Minus) /\ mantissa (snd x) = d_man d /\ exponent (snd x) = d_exp d /\
  (d_plain d = true -> exists ds, x = (NoSign, mkNumeral ds None None)).

Lemma entry_dec {T} `{Num T} x d : is_dec x d -> entry_value x = dec_value d.
Proof.
  intros (A & B & C & _). unfold entry_value, number, dec_value. rewrite B, C.
  destruct (d_neg d), (fst x); try reflexivity; exfalso; destruct A as [A1 A2]; try (specialize (A1 eq_refl)); try (specialize (A2 eq_refl)); discriminate.
Qed.
Lemma count_dec x d n : is_dec x d -> d_plain d = true -> d_man d = Z.of_nat n -> Z.of_nat n < 2 ^ 32 -> count_of x n.
Proof.
  intros (_ & B & _ & D) P M L. destruct (D P) as (ds & ->). exists ds. split; [reflexivity|]. split; [|exact L].
  rewrite <- M, <- B. unfold mantissa, frac_digits. cbn [snd ip fp]. now rewrite app_nil_r.
Qed.

Lemma dval_digit c v : dval c = Some v -> digit_value c = Some v /\ 0 <= v < 10.
Proof. destruct c as [[] [] [] [] [] [] [] []]; cbn; intros E; inversion E; subst; (split; [reflexivity|lia]). Qed.
Lemma blank_white c : blank c = true -> white c.
Proof. unfold white. destruct c as [[] [] [] [] [] [] [] []]; cbn; intros E; try discriminate; tauto. Qed.

Lemma run_digits : forall t acc n m k r, run acc n t = (m, k, r) ->
  exists ds, t = ds ++ r /\ Forall (is_digit 10) ds /\ m = acc * 10 ^ Z.of_nat (length ds) + value 10 ds /\ k = n + Z.of_nat (length ds).
Proof.
  induction t as [|c t IH]; intros acc n m k r E.
  - cbn in E. inversion E; subst. exists []. cbn. repeat split; auto; lia.
  - cbn [run] in E. destruct (dval c) as [v|] eqn:Ev.
    + destruct (dval_digit c v Ev) as [D1 D2].
      destruct (IH _ _ _ _ _ E) as (ds & -> & F & -> & ->). exists (c :: ds). split; [reflexivity|].
      split; [constructor; [exists v; split; [exact D1|lia]|exact F]|].
      cbn [value length]. rewrite D1. rewrite Nat2Z.inj_succ, Z.pow_succ_r by lia. split; [ring|lia].
    + inversion E; subst. exists []. cbn [app length value]. repeat split; auto; lia.
Qed.

Lemma sign_cases t : sign_of t = (Minus, tl t) /\ t = "-"%char :: tl t \/ sign_of t = (Plus, tl t) /\ t = "+"%char :: tl t \/ sign_of t = (NoSign, t).
Proof. destruct t as [|c t]; cbn; auto. destruct c as [[] [] [] [] [] [] [] []]; cbn; auto. Qed.
Lemma sign_rendered t s r : sign_of t = (s, r) -> t = render_sign s ++ r.
Proof.
  intros E. destruct (sign_cases t) as [[A B]|[[A B]|A]]; rewrite A in E; inversion E; subst; cbn [render_sign]; try exact B. reflexivity.
Qed.

Lemma fraction_rendered m t f r : fraction m t = (f, r) ->
  match f with
  | None => t = r
  | Some (m2, n2) => exists ds, t = render_frac (Some ds) ++ r /\ Forall (is_digit 10) ds /\
      m2 = m * 10 ^ Z.of_nat (length ds) + value 10 ds /\ n2 = Z.of_nat (length ds)
  end.
Proof.
  intros E.
  assert (D : fraction m t = (None, t) \/ (t = "."%char :: tl t /\ fraction m t = (let '(a, b, c) := run m 0 (tl t) in (Some (a, b), c)))).
  { destruct t as [|c t]; cbn; auto. destruct c as [[] [] [] [] [] [] [] []]; cbn; auto. }
  destruct D as [D|[D1 D2]].
  - rewrite D in E. now inversion E.
  - rewrite D2 in E. destruct (run m 0 (tl t)) as [[a b] c] eqn:ER. inversion E; subst.
    destruct (run_digits _ _ _ _ _ _ ER) as (ds & HT & F & -> & ->). exists ds. rewrite D1, HT. repeat split; auto.
Qed.

Lemma exponent_rendered t x r : exponent_of t = (x, r) ->
  match x with
  | None => t = r
  | Some e => exists c s ds, t = render_exp (Some (c, s, ds)) ++ r /\ Forall (is_digit 10) ds /\ ds <> [] /\
      e = (match s with Minus => - value 10 ds | _ => value 10 ds end)
  end.
Proof.
  intros E.
  assert (D : exponent_of t = (None, t) \/ exists c, t = render_letter c ++ tl t /\ exponent_of t =
     (let '(s, r1) := sign_of (tl t) in let '(x, n, r2) := run 0 0 r1 in
      if 0 <? n then (Some (match s with Minus => - x | _ => x end), r2) else (None, t))).
  { destruct t as [|c t]; cbn; auto.
    destruct c as [[] [] [] [] [] [] [] []]; cbn [exponent_of tl]; auto; right; [exists SmallE|exists CapitalE]; split; reflexivity. }
  destruct D as [D|(c & D1 & D2)].
  - rewrite D in E. now inversion E.
  - rewrite D2 in E. destruct (sign_of (tl t)) as [s r1] eqn:ES. destruct (run 0 0 r1) as [[v n] r2] eqn:ER.
    destruct (0 <? n) eqn:EN; [|now inversion E].
    apply Z.ltb_lt in EN. inversion E; subst. destruct (run_digits _ _ _ _ _ _ ER) as (ds & HT & F & HV & HN).
    exists c, s, ds. split.
    { rewrite D1, (sign_rendered _ _ _ ES), HT. cbn [render_exp]. now rewrite <- !app_assoc. }
    split; [exact F|]. split; [intros ->; cbn in HN; lia|]. cbn [Z.mul Z.add] in HV. rewrite HV. destruct s; lia.
Qed.

Lemma ended_delimited t : ended t = true -> delimited t.
Proof. destruct t as [|c r]; [now left|]. cbn. intros E. right. exists c, r. split; [reflexivity|now apply blank_white]. Qed.

Lemma one_number_rendered t d r : one_number t = Some (d, r) ->
  exists s n, t = render_sign s ++ render n ++ r /\ proper n /\ delimited r /\ is_dec (s, n) d.
Proof.
  unfold one_number. intros E.
  destruct (sign_of t) as [s t1] eqn:ES. destruct (run 0 0 t1) as [[m1 n1] t2] eqn:ER.
  destruct (fraction m1 t2) as [f t3] eqn:EF. destruct (exponent_of t3) as [x t4] eqn:EX.
  destruct ((0 <? n1 + _) && ended t4) eqn:EC; [|discriminate]. apply andb_true_iff in EC. destruct EC as [EC1 EC2].
  apply Z.ltb_lt in EC1. inversion E; subst d r. clear E.
  rewrite (sign_rendered _ _ _ ES). destruct (run_digits _ _ _ _ _ _ ER) as (ds & HT & F1 & HM & HN).
  apply fraction_rendered in EF. apply exponent_rendered in EX. exists s.
  set (fd := match f with None => None | Some _ => Some (firstn (length t2 - length t3 - 1) (tl t2)) end).
  assert (HF : exists fo, t2 = render_frac fo ++ t3 /\ Forall (is_digit 10) (match fo with Some a => a | None => [] end) /\
     (match f with Some (m2, _) => m2 | None => m1 end) = m1 * 10 ^ Z.of_nat (length (match fo with Some a => a | None => [] end)) + value 10 (match fo with Some a => a | None => [] end) /\
     (match f with Some (_, n2) => n2 | None => 0 end) = Z.of_nat (length (match fo with Some a => a | None => [] end)) /\ (f = None -> fo = None)).
  { destruct f as [[m2 n2]|].
    - destruct EF as (fs & -> & F2 & -> & ->). exists (Some fs). repeat split; auto. discriminate.
    - exists None. subst t2. cbn. repeat split; auto. lia. }
  destruct HF as (fo & H2 & F2 & HM2 & HN2 & HFN). clear fd EF.
  assert (HX : exists xo, t3 = render_exp xo ++ t4 /\ (match xo with None => True | Some (_, _, a) => Forall (is_digit 10) a /\ a <> [] end) /\
    match x with Some e => e | None => 0 end = match xo with None => 0 | Some (_, Minus, a) => - value 10 a | Some (_, _, a) => value 10 a end /\ (x = None -> xo = None)).
  { destruct x as [e|].
    - destruct EX as (c & s' & a & -> & F3 & N3 & ->). exists (Some (c, s', a)). split; [reflexivity|]. split; [auto|]. split; [destruct s'; reflexivity|discriminate].
    - exists None. subst t3. cbn. auto. }
  destruct HX as (xo & H3 & F3 & HE & HXN). clear EX.
  exists (mkNumeral ds fo xo). split.
  { unfold render. cbn [ip fp ex]. rewrite HT, H2, H3. now rewrite <- !app_assoc. }
  split.
  { unfold proper, frac_digits. cbn [ip fp ex]. repeat split; auto.
    intros K. apply app_eq_nil in K. destruct K as [-> K]. destruct fo as [a|]; cbn [length] in *; [subst a|]; cbn [length] in *; lia. }
  split; [now apply ended_delimited|].
  unfold is_dec, mantissa, exponent, frac_digits. cbn [fst snd ip fp ex d_neg d_plain d_man d_exp].
  split; [destruct s; split; intros; auto; discriminate|].
  split; [rewrite HM2, HM, value_app; destruct fo; reflexivity|].
  split; [rewrite HE, HN2; destruct fo; reflexivity|].
  destruct s, f as [[? ?]|], x as [?|]; try discriminate. intros _. rewrite HFN, HXN by reflexivity. eauto.
Qed.

Lemma skip_blanks_white t : exists w, t = w ++ Shipped.skip_blanks t /\ Forall white w.
Proof.
  induction t as [|c t (w & E & F)]; [exists []; auto|]. cbn [Shipped.skip_blanks]. destruct (blank c) eqn:B.
  - exists (c :: w). split; [cbn [app]; now f_equal|constructor; [now apply blank_white|exact F]].
  - exists []. auto.
Qed.

Lemma numbers_written : forall fuel t l r, numbers_of fuel t = (l, r) -> exists es, written t es r /\ Forall2 is_dec es l.
Proof.
  induction fuel as [|c fuel IH]; intros t l r E; cbn [numbers_of] in E.
  - inversion E; subst. exists []. split; constructor.
  - destruct (one_number (Shipped.skip_blanks t)) as [[d u]|] eqn:EO; [|inversion E; subst; exists []; split; constructor].
    destruct (numbers_of fuel u) as [l' z] eqn:EN. inversion E; subst. destruct (IH _ _ _ EN) as (es & W & F).
    destruct (one_number_rendered _ _ _ EO) as (s & n & HT & P & D & I). destruct (skip_blanks_white t) as (w & HW & FW).
    exists ((s, n) :: es). split; [|constructor; auto]. rewrite HW, HT. now constructor.
Qed.

(** ** Lists *)
Lemma Forall2_pairs {A B} (P : A -> B -> Prop) : forall n es l, Forall2 P es l -> length l = (2 * n)%nat ->
  exists rows, flat_map (fun x => [fst x; snd x]) rows = es /\ length rows = n /\
    Forall2 (fun x d => P (fst x) (fst d) /\ P (snd x) (snd d)) rows (pair_up l).
Proof.
  induction n as [|n IH]; intros es l F L.
  - destruct l; [|discriminate]. inversion F; subst. exists []. repeat split; constructor.
  - destruct l as [|a [|b l]]; try (cbn in L; lia).
    inversion F as [|x ? es1 ? P1 F1]; subst. inversion F1 as [|y ? es2 ? P2 F2]; subst.
    destruct (IH es2 l F2) as (rows & <- & LR & FR); [cbn in L; lia|].
    exists ((x, y) :: rows). split; [reflexivity|]. split; [cbn; lia|]. cbn [pair_up]. constructor; auto.
Qed.
Lemma pair_up_length {A} : forall n (l : list A), length l = (2 * n)%nat -> length (pair_up l) = n.
Proof.
  induction n as [|n IH]; intros l L; [destruct l; [reflexivity|discriminate]|].
  destruct l as [|a [|b l]]; try (cbn in L; lia). cbn [pair_up length]. f_equal. apply IH. cbn in L. lia.
Qed.
Lemma Forall2_firstn_skipn {A B} (P : A -> B -> Prop) m : forall es l, Forall2 P es l ->
  Forall2 P (firstn m es) (firstn m l) /\ Forall2 P (skipn m es) (skipn m l).
Proof.
  induction m as [|m IH]; intros es l F; [split; [constructor|exact F]|].
  inversion F as [|x y es' l' P1 F1]; subst; cbn; [split; constructor|]. destruct (IH _ _ F1). split; auto.
Qed.
Lemma Forall2_len {A B} (P : A -> B -> Prop) es l : Forall2 P es l -> length es = length l.
Proof. induction 1; cbn; auto. Qed.
Lemma Forall2_chunks {A B} (P : A -> B -> Prop) m : forall n es l, Forall2 P es l -> length l = (n * m)%nat ->
  exists rows, concat rows = es /\ length rows = n /\ Forall (fun r => length r = m) rows /\ Forall2 (Forall2 P) rows (chunks m n l).
Proof.
  induction n as [|n IH]; intros es l F L.
  - destruct l; [|discriminate]. inversion F; subst. exists []. repeat split; constructor.
  - destruct (Forall2_firstn_skipn P m es l F) as [F1 F2].
    destruct (IH (skipn m es) (skipn m l) F2) as (rows & HC & LR & FL & FR); [rewrite skipn_length; lia|].
    exists (firstn m es :: rows). cbn [concat]. rewrite HC, firstn_skipn. repeat split; [cbn; lia| |].
    + constructor; auto. rewrite firstn_length. apply Forall2_len in F. lia.
    + constructor; auto.
Qed.
Lemma chunks_length {A} m : forall n (l : list A), length (chunks m n l) = n.
Proof. induction n; intros; cbn; auto. Qed.
Lemma chunks_rows {A} m : forall n (l : list A), length l = (n * m)%nat -> Forall (fun r => length r = m) (chunks m n l).
Proof.
  induction n as [|n IH]; intros l L; cbn [chunks]; constructor.
  - rewrite firstn_length. lia.
  - apply IH. rewrite skipn_length. lia.
Qed.
Lemma values_dec {T} `{Num T} es l : Forall2 is_dec es l -> map entry_value es = map (dec_value (T := T)) l.
Proof. induction 1; cbn; auto. f_equal; auto. now apply entry_dec. Qed.
Lemma values_dec_rows {T} `{Num T} es l : Forall2 (Forall2 is_dec) es l -> map (map entry_value) es = map (map (dec_value (T := T))) l.
Proof. induction 1; cbn; auto. f_equal; auto. now apply values_dec. Qed.
Lemma values_dec_fst {T} `{Num T} rows l : Forall2 (fun x d => is_dec (fst x) (fst d) /\ is_dec (snd x) (snd d)) rows l ->
  map (fun x => entry_value (fst x)) rows = map (fun d => dec_value (T := T) (fst d)) l.
Proof. induction 1 as [|x d ? ? [? ?]]; cbn; auto. f_equal; auto. now apply entry_dec. Qed.
Lemma values_dec_snd {T} `{Num T} rows l : Forall2 (fun x d => is_dec (fst x) (fst d) /\ is_dec (snd x) (snd d)) rows l ->
  map (fun x => entry_value (snd x)) rows = map (fun d => dec_value (T := T) (snd d)) l.
Proof. induction 1 as [|x d ? ? [? ?]]; cbn; auto. f_equal; auto. now apply entry_dec. Qed.

(** ** Decimals as real numbers *)
Lemma dec_R (d : dec) : dec_value d = (IZR (d_int d) * powerRZ 10 (d_exp d))%R.
Proof. unfold dec_value, d_int. destruct (d_neg d); rewrite nlit_R; unfold Rlit; rnum; [rewrite opp_IZR; ring|reflexivity]. Qed.

Lemma p10_pos e : (0 < powerRZ 10 e)%R.
Proof. apply powerRZ_lt. lra. Qed.
Lemma p10_int e : 0 <= e -> powerRZ 10 e = IZR (10 ^ e).
Proof.
  intros H. rewrite <- (Z2Nat.id e H). rewrite <- pow_powerRZ. apply pow_IZR.
Qed.
Lemma dcmp_scale (a : dec) e : e <= d_exp a ->
  (IZR (d_int a) * powerRZ 10 (d_exp a))%R = (IZR (d_int a * 10 ^ (d_exp a - e)) * powerRZ 10 e)%R.
Proof.
  intros H. rewrite mult_IZR, <- p10_int by lia. rewrite Rmult_assoc, <- powerRZ_add by lra. do 2 f_equal. lia.
Qed.
Lemma dle_R a b : dle a b = true -> (dec_value a <= dec_value b)%R.
Proof.
  unfold dle, dcmp. intros E. apply Z.leb_le in E. rewrite !dec_R. set (e := Z.min _ _) in *.
  rewrite (dcmp_scale a e), (dcmp_scale b e) by (unfold e; lia).
  apply Rmult_le_compat_r; [apply Rlt_le, p10_pos|now apply IZR_le].
Qed.
Lemma dlt_R a b : dlt a b = true -> (dec_value a < dec_value b)%R.
Proof.
  unfold dlt, dcmp. intros E. apply Z.ltb_lt in E. rewrite !dec_R. set (e := Z.min _ _) in *.
  rewrite (dcmp_scale a e), (dcmp_scale b e) by (unfold e; lia).
  apply Rmult_lt_compat_r; [apply p10_pos|now apply IZR_lt].
Qed.
Lemma dlit_R m e : dec_value (dlit m e) = Rlit m e.
Proof.
  rewrite dec_R. unfold Rlit, d_int, dlit. cbn [d_neg d_man d_exp]. do 2 f_equal.
  destruct (Z.ltb_spec m 0); lia.
Qed.
Lemma at_dec l i : (i < length l)%nat -> at_ (map dec_value l) i = dec_value (dnth l i).
Proof.
  intros H. unfold at_, dnth. rewrite nth_indep with (d' := dec_value (dlit 0 0)) by (now rewrite map_length). apply map_nth.
Qed.
Lemma chain_nth rel : forall l i, chain rel l = true -> (S i < length l)%nat -> rel (dnth l i) (dnth l (S i)) = true.
Proof.
  induction l as [|x l IH]; intros i E L; [cbn in L; lia|]. cbn [chain] in E. destruct l as [|y l]; [cbn in L; lia|].
  apply andb_true_iff in E. destruct E as [E1 E2]. destruct i as [|i]; [exact E1|]. apply (IH i E2). cbn in L |- *. lia.
Qed.
Lemma chain_increasing l : chain dlt l = true -> increasing (map dec_value l).
Proof.
  intros E i j [H1 H2]. rewrite map_length in H2. induction j as [|j IH]; [lia|].
  pose proof (dlt_R _ _ (chain_nth dlt l j E H2)) as S1. rewrite !at_dec in * by lia.
  destruct (Nat.eq_dec i j) as [->|D]; [exact S1|]. pose proof (IH ltac:(lia) ltac:(lia)) as S2.
  rewrite ?at_dec in S2 by lia. lra.
Qed.
Lemma chain_monotone l i j : chain dle l = true -> (i <= j < length l)%nat -> (at_ (map dec_value l) i <= at_ (map dec_value l) j)%R.
Proof.
  intros E [H1 H2]. induction j as [|j IH]; [replace i with 0%nat by lia; lra|].
  pose proof (dle_R _ _ (chain_nth dle l j E H2)) as S1. rewrite !at_dec in * by lia.
  destruct (Nat.eq_dec i (S j)) as [->|D]; [lra|]. pose proof (IH ltac:(lia) ltac:(lia)) as S2. lra.
Qed.
