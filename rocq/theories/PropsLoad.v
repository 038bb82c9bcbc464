(** * Properties C97, C98: the data tables of the processes *)
From Coq Require Import String ZArith Reals Lra Psatz List Bool Ascii Lia.
From Verif Require Import Num RNum Outcome OutcomeFacts Text SpecNumeral NumeralFacts SpecTable Process ProcessSafe SpecLoad Tables TablesFacts SampleFacts.
Import ListNotations.
Local Open Scope string_scope.
Local Open Scope list_scope.

Definition emission_files : list string := ["hsokolov.table"; "ksi_sokolov.table"; "chimin.table"].
Definition pair_files : list string := ["pairprod.table"; "e_split.table"; "epsilon.table"; "log_chi.table"].
Definition located (path f : string) : string := (path ++ "/" ++ f)%string.

(** ** C97 *)
(** any arithmetic: what is written in the files is what the tables contain; any white space may separate the numbers,
    anything may follow them *)
Theorem C97_emission_tables : forall {T} `{Num T} junk jl path disk h ph cm hc rows hr ec cc lmin lmax data pr mins cr m,
  disk (located path "hsokolov.table") = Some h -> disk (located path "ksi_sokolov.table") = Some ph ->
  disk (located path "chimin.table") = Some cm ->
  written h (hc :: in_turn rows) hr -> count_of hc (length rows) ->
  written ph (ec :: cc :: lmin :: lmax :: concat data) pr -> count_of ec (length data) -> count_of cc m ->
  Forall (fun r => length r = m) data ->
  written cm mins cr -> length mins = length data ->
  exists t : em_tables T, load_em junk jl (Some path) disk = Ok t /\
    h_len t = Z.of_nat (length rows) /\
    h_axis t = map (fun x => entry_value (fst x)) rows /\ h_data t = map (fun x => entry_value (snd x)) rows /\
    ph_etaLen t = Z.of_nat (length data) /\ ph_chiLen t = Z.of_nat m /\
    ph_data t = map (map entry_value) data /\
    ph_axis t = eta_axis (Z.of_nat (length data)) (entry_value lmin) (entry_value lmax) /\
    ph_chi t = map (fun x => chi_row (Z.of_nat (length data)) (Z.of_nat m) (fst x) (entry_value (snd x)))
                   (combine (ph_axis t) mins).
Proof.
  intros T HT junk jl path disk h ph cm hc rows hr ec cc lmin lmax data pr mins cr m D1 D2 D3 W1 C1 W2 C2 C3 F W3 L3.
  unfold located in *. cbn [append] in D1, D2, D3. unfold load_em. rewrite D1, D2, D3.
  eexists. split; [reflexivity|]. unfold read_em.
  destruct (written_unsigned hc _ h hr _ jl C1 W1) as (u1 & -> & U1).
  destruct (written_unsigned ec _ ph pr _ jl C2 W2) as (u2 & -> & U2).
  destruct (written_unsigned cc _ u2 pr _ jl C3 U2) as (u3 & -> & U3).
  inversion U3 as [|w s n u4 l' r' Hw P D W4]; subst. rewrite written_double by assumption.
  inversion W4 as [|w5 s5 n5 u5 l5 r5 Hw5 P5 D5 W5]; subst. rewrite written_double by assumption.
  rewrite !Nat2Z.id. rewrite <- L3. rewrite (written_array junk mins cm cr) by assumption. rewrite L3.
  rewrite (written_rows junk m data u5 pr) by assumption.
  cbn [h_len h_axis h_data ph_etaLen ph_chiLen ph_data ph_axis ph_chi fst].
  rewrite (written_pairs rows u1 hr) by assumption. rewrite !map_map. cbn [fst snd].
  repeat split; auto.
  clear. set (a := eta_axis _ _ _). clearbody a. revert mins. induction a as [|x a IH]; intros [|y mins]; auto.
  cbn [map combine fst snd]. f_equal. apply IH.
Qed.
Print Assumptions C97_emission_tables.

(** exact reals: the eta axis is uniform between the limits in the file; every chi axis starts at its chimin and is
    uniform, its etaLength-th entry being eta / 2 (all in log10) *)
Theorem C97_axes : forall (n m : nat) (a b : R) (mins : list R) i, (2 <= n)%nat -> length mins = n -> (i < n)%nat ->
  let axis := eta_axis (Z.of_nat n) a b in
  let chi := nth i (map (fun x => chi_row (Z.of_nat n) (Z.of_nat m) (fst x) (snd x)) (combine axis mins)) [] in
  length axis = n /\ at_ axis 0 = a /\ at_ axis (n - 1) = b /\
  (at_ axis i = a + INR i * ((b - a) / (INR n - 1)))%R /\
  length chi = m /\
  ((0 < m)%nat -> at_ chi 0 = log10 (nth i mins 0%R)) /\
  ((n <= m)%nat -> at_ chi (n - 1) = at_ axis i - log10 2)%R /\
  (forall j, (S (S j) < m)%nat -> at_ chi (S (S j)) - at_ chi (S j) = at_ chi (S j) - at_ chi j)%R.
Proof.
  intros n m a b mins i N LM Hi axis chi.
  assert (LA : length axis = n) by (unfold axis, eta_axis; rewrite map_length, seq_length; lia).
  assert (HA : forall k, (k < n)%nat -> at_ axis k = (a + INR k * ((b - a) / (INR n - 1)))%R).
  { intros k Hk. unfold axis, eta_axis, at_. rewrite nth_map_seq by lia. cbn [plus]. rnum. now rewrite <- !INR_IZR_INZ. }
  assert (HN : (1 < INR n)%R) by (change 1%R with (INR 1); apply lt_INR; lia).
  assert (EC : chi = chi_row (Z.of_nat n) (Z.of_nat m) (at_ axis i) (nth i mins 0%R)).
  { unfold chi. rewrite nth_indep with (d' := (fun x => chi_row (Z.of_nat n) (Z.of_nat m) (fst x) (snd x)) (0%R, 0%R))
      by (rewrite map_length, combine_length; lia).
    rewrite (map_nth (fun x => chi_row (Z.of_nat n) (Z.of_nat m) (fst x) (snd x))), combine_nth by lia. reflexivity. }
  assert (HC : forall j, (j < m)%nat -> at_ chi j = (log10 (nth i mins 0) +
     INR j * ((at_ axis i - log10 2 - log10 (nth i mins 0)) / (INR n - 1)))%R).
  { intros j Hj. rewrite EC. unfold chi_row, at_ at 1. rewrite nth_map_seq by lia. cbn [plus].
    change (nlog10 (T := R)) with log10. rnum. now rewrite <- !INR_IZR_INZ. }
  assert (HN1 : INR (n - 1) = (INR n - 1)%R) by (rewrite minus_INR by lia; reflexivity).
  split; [exact LA|]. split; [rewrite HA by lia; cbn [INR]; lra|].
  split; [rewrite HA by lia; rewrite HN1; field; lra|]. split; [now apply HA|].
  split; [rewrite EC; unfold chi_row; rewrite map_length, seq_length; lia|].
  split; [intros; rewrite HC by lia; cbn [INR]; lra|].
  split; [intros; rewrite HC by lia; rewrite HN1; field; lra|].
  intros j Hj. rewrite !HC by lia. rewrite !S_INR. ring.
Qed.
Print Assumptions C97_axes.

Theorem C97_pair_tables : forall {T} `{Num T} junk jl path disk tb fr ep lc tc rows tr fc data frr eps er chis lr,
  disk (located path "pairprod.table") = Some tb -> disk (located path "e_split.table") = Some fr ->
  disk (located path "epsilon.table") = Some ep -> disk (located path "log_chi.table") = Some lc ->
  written tb (tc :: in_turn rows) tr -> count_of tc (length rows) ->
  written fr (fc :: concat data) frr -> count_of fc (length data) -> Forall (fun r => length r = length data) data ->
  written ep eps er -> length eps = length data -> written lc chis lr -> length chis = length data ->
  exists t : bw_tables T, load_bw junk jl (Some path) disk = Ok t /\
    t_len t = Z.of_nat (length rows) /\
    t_axis t = map (fun x => entry_value (fst x)) rows /\ t_data t = map (fun x => entry_value (snd x)) rows /\
    s_len t = Z.of_nat (length data) /\ s_data t = map (map entry_value) data /\
    s_chi t = map entry_value chis /\ s_fract t = map entry_value eps.
Proof.
  intros T HT junk jl path disk tb fr ep lc tc rows tr fc data frr eps er chis lr D1 D2 D3 D4 W1 C1 W2 C2 F W3 L3 W4 L4.
  unfold located in *. cbn [append] in D1, D2, D3, D4. unfold load_bw. rewrite D1, D2, D3, D4.
  eexists. split; [reflexivity|]. unfold read_bw.
  destruct (written_unsigned tc _ tb tr _ jl C1 W1) as (u1 & -> & U1). rewrite Nat2Z.id.
  pose proof (written_pairs (T := T) rows u1 tr (junk 0%nat 0%nat) (junk 0%nat 1%nat) U1) as HP.
  destruct (in_pairs _ _ _ _) as [tp lch]. cbn [fst] in HP. subst tp.
  destruct (written_unsigned fc _ fr frr _ jl C2 W2) as (u2 & -> & U2).
  rewrite !Nat2Z.id. rewrite (written_rows junk (length data) data u2 frr) by assumption.
  assert (HA : in_array junk (length data) 1 0 (Some ep) = (map entry_value eps, Some er)) by (rewrite <- L3; now apply written_array).
  assert (HC : in_column (length data) (Some lc) lch = map entry_value chis) by (rewrite <- L4; eapply written_column; eauto).
  rewrite HA, HC.
  cbn [t_len t_axis t_data s_len s_data s_chi s_fract fst]. rewrite !map_map. cbn [fst snd]. repeat split; auto.
Qed.
Print Assumptions C97_pair_tables.

(** whatever the files contain: the arrays have the lengths that are stored with them, so that (if these are at least
    two) no later table look-up leaves them (C77, C78) *)
Theorem C97_any_contents : forall {T} `{Num T} (junk : nat -> nat -> T) jl env disk, (0 <= jl < 2 ^ 32)%Z ->
  (forall t, load_em junk jl env disk = Ok t ->
     (2 <= h_len t < 2 ^ 31)%Z -> (2 <= ph_etaLen t < 2 ^ 31)%Z -> (2 <= ph_chiLen t < 2 ^ 31)%Z -> em_tables_ok t) /\
  (forall t, load_bw junk jl env disk = Ok t ->
     (2 <= t_len t < 2 ^ 31)%Z -> (2 <= s_len t < 2 ^ 31)%Z -> bw_tables_ok t).
Proof. intros. split; intros; [eapply load_em_ok|eapply load_bw_ok]; eauto. Qed.
Print Assumptions C97_any_contents.

(** loading ends in exactly one of three ways *)
Theorem C97_failures : forall {T} `{Num T} (junk : nat -> nat -> T) jl disk,
  load_em junk jl None disk = UB NullString /\ load_bw junk jl None disk = UB NullString /\
  forall path,
  ((exists f, In f emission_files /\ disk (located path f) = None) <-> load_em junk jl (Some path) disk = Exit 1) /\
  ((forall f, In f emission_files -> disk (located path f) <> None) <-> exists t, load_em junk jl (Some path) disk = Ok t) /\
  ((exists f, In f pair_files /\ disk (located path f) = None) <-> load_bw junk jl (Some path) disk = Exit 1) /\
  ((forall f, In f pair_files -> disk (located path f) <> None) <-> exists t, load_bw junk jl (Some path) disk = Ok t).
Proof.
  intros T HT junk jl disk. split; [reflexivity|]. split; [reflexivity|]. intros path.
  assert (D : forall f, disk (located path f) = None \/ exists t, disk (located path f) = Some t)
    by (intros f; destruct (disk _); eauto).
  unfold load_em, load_bw, emission_files, pair_files.
  change (path ++ "/hsokolov.table")%string with (located path "hsokolov.table").
  change (path ++ "/ksi_sokolov.table")%string with (located path "ksi_sokolov.table").
  change (path ++ "/chimin.table")%string with (located path "chimin.table").
  change (path ++ "/pairprod.table")%string with (located path "pairprod.table").
  change (path ++ "/e_split.table")%string with (located path "e_split.table").
  change (path ++ "/epsilon.table")%string with (located path "epsilon.table").
  change (path ++ "/log_chi.table")%string with (located path "log_chi.table").
  split; [|split; [|split]].
  - split.
    + intros (x & I & X). destruct I as [<-|[<-|[<-|I]]]; [| | |destruct I]; rewrite X; repeat (destruct (disk _)); reflexivity.
    + destruct (D "hsokolov.table") as [E1|(a & E1)]; [exists "hsokolov.table"; split; [now left|exact E1]|].
      destruct (D "ksi_sokolov.table") as [E2|(b & E2)]; [exists "ksi_sokolov.table"; split; [right; now left|exact E2]|].
      destruct (D "chimin.table") as [E3|(c & E3)]; [exists "chimin.table"; split; [right; right; now left|exact E3]|].
      rewrite E1, E2, E3. discriminate.
  - split.
    + intros X. destruct (D "hsokolov.table") as [E1|(a & E1)]; [exfalso; apply (X "hsokolov.table"); [now left|exact E1]|].
      destruct (D "ksi_sokolov.table") as [E2|(b & E2)]; [exfalso; apply (X "ksi_sokolov.table"); [right; now left|exact E2]|].
      destruct (D "chimin.table") as [E3|(c & E3)]; [exfalso; apply (X "chimin.table"); [right; right; now left|exact E3]|].
      rewrite E1, E2, E3. eauto.
    + intros (t & X) x I Y. destruct I as [<-|[<-|[<-|I]]]; [| | |destruct I]; rewrite Y in X; repeat (destruct (disk _)); discriminate.
  - split.
    + intros (x & I & X). destruct I as [<-|[<-|[<-|[<-|I]]]]; [| | | |destruct I]; rewrite X; repeat (destruct (disk _)); reflexivity.
    + destruct (D "pairprod.table") as [E1|(a & E1)]; [exists "pairprod.table"; split; [now left|exact E1]|].
      destruct (D "e_split.table") as [E2|(b & E2)]; [exists "e_split.table"; split; [right; now left|exact E2]|].
      destruct (D "epsilon.table") as [E3|(c & E3)]; [exists "epsilon.table"; split; [right; right; now left|exact E3]|].
      destruct (D "log_chi.table") as [E4|(d & E4)]; [exists "log_chi.table"; split; [right; right; right; now left|exact E4]|].
      rewrite E1, E2, E3, E4. discriminate.
  - split.
    + intros X. destruct (D "pairprod.table") as [E1|(a & E1)]; [exfalso; apply (X "pairprod.table"); [now left|exact E1]|].
      destruct (D "e_split.table") as [E2|(b & E2)]; [exfalso; apply (X "e_split.table"); [right; now left|exact E2]|].
      destruct (D "epsilon.table") as [E3|(c & E3)]; [exfalso; apply (X "epsilon.table"); [right; right; now left|exact E3]|].
      destruct (D "log_chi.table") as [E4|(d & E4)]; [exfalso; apply (X "log_chi.table"); [right; right; right; now left|exact E4]|].
      rewrite E1, E2, E3, E4. eauto.
    + intros (t & X) x I Y. destruct I as [<-|[<-|[<-|[<-|I]]]]; [| | | |destruct I]; rewrite Y in X; repeat (destruct (disk _)); discriminate.
Qed.
Print Assumptions C97_failures.

(** ** C98: files that end too early are accepted *)
(** the last complete row of the emission-rate table is repeated *)
Theorem C98_short_rate_table : forall {T} `{Num T} (junk : nat -> nat -> T) jl path disk h ph cm hc rows hr n,
  disk (located path "hsokolov.table") = Some h -> disk (located path "ksi_sokolov.table") = Some ph ->
  disk (located path "chimin.table") = Some cm ->
  written h (hc :: in_turn rows) hr -> Forall white hr -> count_of hc n -> (0 < length rows <= n)%nat ->
  exists t, load_em junk jl (Some path) disk = Ok t /\ h_len t = Z.of_nat n /\
    length (h_axis t) = n /\ length (h_data t) = n /\
    forall i d x, (i < n)%nat ->
      nth i (h_axis t) d = entry_value (fst (nth (Nat.min i (length rows - 1)) rows (x, x))) /\
      nth i (h_data t) d = entry_value (snd (nth (Nat.min i (length rows - 1)) rows (x, x))).
Proof.
  intros T HT junk jl path disk h ph cm hc rows hr n D1 D2 D3 W F C L.
  unfold located in *. cbn [append] in D1, D2, D3. unfold load_em. rewrite D1, D2, D3.
  eexists. split; [reflexivity|]. unfold read_em.
  destruct (written_unsigned hc _ h hr _ jl C W) as (u1 & -> & U1).
  destruct (in_unsigned (Some ph) jl) as [s1 en]. destruct (in_unsigned s1 jl) as [s2 cn].
  destruct (in_double s2 _) as [s3 logMin]. destruct (in_double s3 _) as [s4 logMax].
  cbn [h_len h_axis h_data]. rewrite Nat2Z.id. split; [reflexivity|].
  pose proof (short_pairs rows (n - length rows) u1 hr (junk 0%nat 0%nat) (junk 0%nat 1%nat) U1 F) as HS. cbv zeta in HS.
  replace (length rows + (n - length rows))%nat with n in HS by lia. rewrite HS. clear HS.
  set (vs := map _ rows). assert (LV : length vs = length rows) by apply map_length.
  rewrite !map_length, app_length, repeat_length, LV. split; [lia|]. split; [lia|].
  intros i d x Hi.
  assert (G : forall d', nth i (vs ++ repeat (last vs (junk 0%nat 0%nat, junk 0%nat 1%nat)) (n - length rows)) d' =
     (entry_value (fst (nth (Nat.min i (length rows - 1)) rows (x, x))), entry_value (snd (nth (Nat.min i (length rows - 1)) rows (x, x))))).
  { intros d'. assert (GV : forall k d'', (k < length rows)%nat -> nth k vs d'' = (entry_value (fst (nth k rows (x, x))), entry_value (snd (nth k rows (x, x))))).
    { intros k d'' Hk. unfold vs. rewrite nth_indep with (d' := (entry_value x, entry_value x)) by (rewrite map_length; lia).
      exact (map_nth (fun q => (entry_value (fst q), entry_value (snd q))) rows (x, x) k). }
    destruct (Nat.lt_ge_cases i (length rows)) as [A|A].
    - rewrite app_nth1 by lia. rewrite GV by lia. now replace (Nat.min i (length rows - 1)) with i by lia.
    - rewrite app_nth2 by lia. rewrite (nth_indep _ _ (last vs (junk 0%nat 0%nat, junk 0%nat 1%nat))) by (rewrite repeat_length; lia).
      rewrite nth_repeat. replace (Nat.min i (length rows - 1)) with (length rows - 1)%nat by lia.
      rewrite <- (GV (length rows - 1)%nat (junk 0%nat 0%nat, junk 0%nat 1%nat)) by lia. rewrite <- LV.
      clear. induction vs as [|v vs IH]; [reflexivity|]. destruct vs as [|w vs]; [reflexivity|].
      change (last (v :: w :: vs) (junk 0%nat 0%nat, junk 0%nat 1%nat)) with (last (w :: vs) (junk 0%nat 0%nat, junk 0%nat 1%nat)).
      rewrite IH. replace (length (v :: w :: vs) - 1)%nat with (S (length (w :: vs) - 1)) by (cbn [length]; lia). reflexivity. }
  split.
  - rewrite nth_indep with (d' := fst (d, d)) by (rewrite map_length, app_length, repeat_length; lia).
    rewrite (map_nth fst), G. reflexivity.
  - rewrite nth_indep with (d' := snd (d, d)) by (rewrite map_length, app_length, repeat_length; lia).
    rewrite (map_nth snd), G. reflexivity.
Qed.
Print Assumptions C98_short_rate_table.

(** the missing entries of the photon-energy table are what the memory happened to contain *)
Theorem C98_short_photon_table : forall {T} `{Num T} (junk : nat -> nat -> T) jl path disk h ph cm ec cc lmin lmax l r n m,
  disk (located path "hsokolov.table") = Some h -> disk (located path "ksi_sokolov.table") = Some ph ->
  disk (located path "chimin.table") = Some cm ->
  written ph (ec :: cc :: lmin :: lmax :: l) r -> Forall white r -> count_of ec n -> count_of cc m -> (length l <= n * m)%nat ->
  exists t, load_em junk jl (Some path) disk = Ok t /\ ph_etaLen t = Z.of_nat n /\ ph_chiLen t = Z.of_nat m /\
    forall i j d x, (i < n)%nat -> (j < m)%nat ->
      nth j (nth i (ph_data t) []) d =
      if (i * m + j <? length l)%nat then entry_value (nth (i * m + j) l x) else junk (2 + i)%nat j.
Proof.
  intros T HT junk jl path disk h ph cm ec cc lmin lmax l r n m D1 D2 D3 W F C1 C2 L.
  unfold located in *. cbn [append] in D1, D2, D3. unfold load_em. rewrite D1, D2, D3.
  eexists. split; [reflexivity|]. unfold read_em. destruct (in_unsigned (Some h) jl) as [hs hn].
  destruct (written_unsigned ec _ ph r _ jl C1 W) as (u2 & -> & U2).
  destruct (written_unsigned cc _ u2 r _ jl C2 U2) as (u3 & -> & U3).
  inversion U3 as [|w s k u4 l' r' Hw P D W4]; subst. rewrite written_double by assumption.
  inversion W4 as [|w5 s5 n5 u5 l5 r5 Hw5 P5 D5 W5]; subst. rewrite written_double by assumption.
  cbn [ph_etaLen ph_chiLen ph_data]. rewrite !Nat2Z.id. repeat split; auto.
  intros. eapply short_rows; eauto.
Qed.
Print Assumptions C98_short_photon_table.

(** ** Concrete files *)
Definition digits_of (t : string) : numeral := mkNumeral (tx t) None None.
Definition tab_text (s : string) : text := map (fun c => if Ascii.eqb c "|" then newline else if Ascii.eqb c "~" then ascii_of_nat 9 else c) (tx s).
Ltac digit_list := repeat constructor; (eexists; split; [reflexivity|reflexivity]).
Ltac proper_numeral := split; [cbn; digit_list|split; [cbn; digit_list|split; [discriminate|cbn; trivial]]].
Ltac white_text := repeat constructor; unfold white; cbn; tauto.
Ltac number_at w s n t := apply (written_more w s n t); [white_text|proper_numeral|
  first [left; reflexivity | right; eexists; eexists; split; [reflexivity|unfold white; cbn; tauto]]|].

(** two rates; a 2 by 2 photon-energy table; the text after the numbers is not looked at *)
Definition ex_h : text := tab_text "2|-1 0|+1~7 and more".
Definition ex_ph : text := tab_text "2~2~-1~1|0~1|0~1|".
Definition ex_cm : text := tab_text "1|2|".
Definition ex_short : text := tab_text "2~2~-1~1|0~1|0|".
Definition ex_disk (ph : text) (f : string) : option text :=
  if String.eqb f "T/hsokolov.table" then Some ex_h else if String.eqb f "T/ksi_sokolov.table" then Some ph
  else if String.eqb f "T/chimin.table" then Some ex_cm else None.

Lemma ex_h_written : written ex_h ((NoSign, digits_of "2") :: in_turn
  [((Minus, digits_of "1"), (NoSign, digits_of "0")); ((Plus, digits_of "1"), (NoSign, digits_of "7"))]) (tx " and more").
Proof.
  number_at (tx "") NoSign (digits_of "2") (tab_text "|-1 0|+1~7 and more").
  number_at (tab_text "|") Minus (digits_of "1") (tab_text " 0|+1~7 and more").
  number_at (tx " ") NoSign (digits_of "0") (tab_text "|+1~7 and more").
  number_at (tab_text "|") Plus (digits_of "1") (tab_text "~7 and more").
  number_at (tab_text "~") NoSign (digits_of "7") (tab_text " and more").
  constructor.
Qed.
Lemma ex_ph_written : written ex_ph ([(NoSign, digits_of "2"); (NoSign, digits_of "2"); (Minus, digits_of "1"); (NoSign, digits_of "1")]
  ++ concat [[(NoSign, digits_of "0"); (NoSign, digits_of "1")]; [(NoSign, digits_of "0"); (NoSign, digits_of "1")]]) (tab_text "|").
Proof.
  number_at (tx "") NoSign (digits_of "2") (tab_text "~2~-1~1|0~1|0~1|").
  number_at (tab_text "~") NoSign (digits_of "2") (tab_text "~-1~1|0~1|0~1|").
  number_at (tab_text "~") Minus (digits_of "1") (tab_text "~1|0~1|0~1|").
  number_at (tab_text "~") NoSign (digits_of "1") (tab_text "|0~1|0~1|").
  number_at (tab_text "|") NoSign (digits_of "0") (tab_text "~1|0~1|").
  number_at (tab_text "~") NoSign (digits_of "1") (tab_text "|0~1|").
  number_at (tab_text "|") NoSign (digits_of "0") (tab_text "~1|").
  number_at (tab_text "~") NoSign (digits_of "1") (tab_text "|").
  constructor.
Qed.
Lemma ex_short_written : written ex_short ([(NoSign, digits_of "2"); (NoSign, digits_of "2"); (Minus, digits_of "1"); (NoSign, digits_of "1")]
  ++ [(NoSign, digits_of "0"); (NoSign, digits_of "1"); (NoSign, digits_of "0")]) (tab_text "|").
Proof.
  number_at (tx "") NoSign (digits_of "2") (tab_text "~2~-1~1|0~1|0|").
  number_at (tab_text "~") NoSign (digits_of "2") (tab_text "~-1~1|0~1|0|").
  number_at (tab_text "~") Minus (digits_of "1") (tab_text "~1|0~1|0|").
  number_at (tab_text "~") NoSign (digits_of "1") (tab_text "|0~1|0|").
  number_at (tab_text "|") NoSign (digits_of "0") (tab_text "~1|0|").
  number_at (tab_text "~") NoSign (digits_of "1") (tab_text "|0|").
  number_at (tab_text "|") NoSign (digits_of "0") (tab_text "|").
  constructor.
Qed.
Lemma ex_cm_written : written ex_cm [(NoSign, digits_of "1"); (NoSign, digits_of "2")] (tab_text "|").
Proof.
  number_at (tx "") NoSign (digits_of "1") (tab_text "|2|").
  number_at (tab_text "|") NoSign (digits_of "2") (tab_text "|").
  constructor.
Qed.
Lemma ex_count : count_of (NoSign, digits_of "2") 2.
Proof. exists (tx "2"). repeat split. Qed.

Example C97_case : forall junk jl, exists t : em_tables R, load_em junk jl (Some "T") (ex_disk ex_ph) = Ok t /\
  h_axis t = [-1; 1]%R /\ h_data t = [0; 7]%R /\ ph_data t = [[0; 1]; [0; 1]]%R /\ ph_etaLen t = 2%Z.
Proof.
  intros junk jl.
  destruct (C97_emission_tables (T := R) junk jl "T" (ex_disk ex_ph) ex_h ex_ph ex_cm (NoSign, digits_of "2")
    [((Minus, digits_of "1"), (NoSign, digits_of "0")); ((Plus, digits_of "1"), (NoSign, digits_of "7"))] (tx " and more")
    (NoSign, digits_of "2") (NoSign, digits_of "2") (Minus, digits_of "1") (NoSign, digits_of "1")
    [[(NoSign, digits_of "0"); (NoSign, digits_of "1")]; [(NoSign, digits_of "0"); (NoSign, digits_of "1")]] (tab_text "|")
    [(NoSign, digits_of "1"); (NoSign, digits_of "2")] (tab_text "|") 2%nat eq_refl eq_refl eq_refl
    ex_h_written ex_count ex_ph_written ex_count ex_count ltac:(repeat constructor) ex_cm_written eq_refl)
    as (t & HL & _ & A & D & N & _ & P & _).
  exists t. split; [exact HL|]. rewrite A, D, P, N.
  cbn [map length fst snd entry_value number digits_of mantissa exponent ip fp ex frac_digits app tx list_ascii_of_string].
  unfold entry_value, number, mantissa, exponent. cbn. rewrite !Rlit_0. repeat split; repeat f_equal; lra.
Qed.

(** so the same files can give different tables from one run to the next *)
Theorem C98_reproducible_refuted : exists (disk : string -> option text) (path : string) (junk junk' : nat -> nat -> R) jl t t',
  load_em junk jl (Some path) disk = Ok t /\ load_em junk' jl (Some path) disk = Ok t' /\ t <> t'.
Proof.
  assert (G : forall junk, exists t : em_tables R, load_em junk 0 (Some "T") (ex_disk ex_short) = Ok t /\ nth 1 (nth 1 (ph_data t) []) 0%R = junk 3%nat 1%nat).
  { intros junk.
    destruct (C98_short_photon_table (T := R) junk 0%Z "T" (ex_disk ex_short) ex_h ex_short ex_cm (NoSign, digits_of "2") (NoSign, digits_of "2")
      (Minus, digits_of "1") (NoSign, digits_of "1") [(NoSign, digits_of "0"); (NoSign, digits_of "1"); (NoSign, digits_of "0")] (tab_text "|") 2%nat 2%nat
      eq_refl eq_refl eq_refl ex_short_written ltac:(white_text) ex_count ex_count ltac:(cbn; lia)) as (t & HL & _ & _ & G).
    exists t. split; [exact HL|]. apply (G 1%nat 1%nat 0%R (NoSign, digits_of "0")); lia. }
  destruct (G (fun _ _ => 0%R)) as (t & H1 & H2). destruct (G (fun _ _ => 1%R)) as (t' & H1' & H2').
  exists (ex_disk ex_short), "T", (fun _ _ => 0%R), (fun _ _ => 1%R), 0%Z, t, t'.
  split; [exact H1|]. split; [exact H1'|]. intros ->. rewrite H2 in H2'. lra.
Qed.
Print Assumptions C98_reproducible_refuted.

(** a rate table announced with three rows, of which one is there *)
Example C98_case : forall junk jl, exists t : em_tables R,
  load_em junk jl (Some "T") (fun f => if String.eqb f "T/hsokolov.table" then Some (tab_text "3|-1 5|") else ex_disk ex_ph f) = Ok t /\
  h_axis t = [-1; -1; -1]%R /\ h_data t = [5; 5; 5]%R.
Proof.
  intros junk jl.
  assert (W : written (tab_text "3|-1 5|") ((NoSign, digits_of "3") :: in_turn [((Minus, digits_of "1"), (NoSign, digits_of "5"))]) (tab_text "|")).
  { number_at (tx "") NoSign (digits_of "3") (tab_text "|-1 5|"). number_at (tab_text "|") Minus (digits_of "1") (tab_text " 5|").
    number_at (tx " ") NoSign (digits_of "5") (tab_text "|"). constructor. }
  assert (C : count_of (NoSign, digits_of "3") 3) by (exists (tx "3"); repeat split).
  destruct (C98_short_rate_table (T := R) junk jl "T"
    (fun f => if String.eqb f "T/hsokolov.table" then Some (tab_text "3|-1 5|") else ex_disk ex_ph f) (tab_text "3|-1 5|") ex_ph ex_cm
    _ _ _ 3 eq_refl eq_refl eq_refl W ltac:(white_text) C ltac:(cbn; lia)) as (t & HL & _ & L1 & L2 & G).
  exists t. split; [exact HL|].
  assert (V : forall i, (i < 3)%nat -> nth i (h_axis t) 0%R = (-1)%R /\ nth i (h_data t) 0%R = 5%R).
  { intros i Hi. destruct (G i 0%R (NoSign, digits_of "0") Hi) as [-> ->].
    replace (Nat.min i _) with 0%nat by (cbn; lia). cbn [nth fst snd].
    unfold entry_value, number, mantissa, exponent. cbn. rewrite !Rlit_0. split; lra. }
  split; apply (nth_ext _ _ 0%R 0%R); auto; intros i Hi; (rewrite L1 in Hi || rewrite L2 in Hi);
  destruct (V i Hi) as [V1 V2]; rewrite ?V1, ?V2; destruct i as [|[|[|i]]]; try reflexivity; lia.
Qed.
