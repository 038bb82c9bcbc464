(** * The main program: no undefined behaviour (lemmas for C135) *)
From Coq Require Import String Ascii ZArith List Lia Bool.
From Verif Require Import Num Outcome OutcomeFacts Vec Units MCTools Particle ParticleList ParticleFacts Source SourceFacts Fields Pusher Process ProcessFacts ProcessSafe
  Sim SimFacts SimTime Histogram HistFacts Hdf5 Output OutFacts OutFile OutBuffers PropsOut Program ProgramFacts PropsProgram PropsClose.
From Verif Require FileParser.
Import ListNotations.
Local Open Scope string_scope.
Local Open Scope list_scope.

(** no undefined behaviour, and the result satisfies [P] *)
Definition sat {A} (r : res A) (P : A -> Prop) : Prop :=
  match r with Ok a => P a | UB _ => False | _ => True end.
Lemma sat_bind {A B} (x : res A) (f : A -> res B) (Q : A -> Prop) (P : B -> Prop) :
  sat x Q -> (forall a, x = Ok a -> Q a -> sat (f a) P) -> sat (bind x f) P.
Proof. destruct x; cbn; intros HX HF; auto. Qed.
Lemma sat_weak {A} (r : res A) (P Q : A -> Prop) : sat r P -> (forall a, r = Ok a -> P a -> Q a) -> sat r Q.
Proof. destruct r; cbn; auto. Qed.
Lemma sat_never {A} (r : res A) P : sat r P -> forall w, r <> UB w.
Proof. destruct r; cbn; congruence. Qed.
Lemma sat_ok {A} (r : res A) P a : sat r P -> r = Ok a -> P a.
Proof. intros HX ->. exact HX. Qed.
Lemma never_sat {A} (r : res A) : (forall w, r <> UB w) -> sat r (fun a => r = Ok a).
Proof. intros HN. destruct r; cbn; auto. apply (HN why). reflexivity. Qed.

(** ** Histograms *)
Section Hists.
Context {T : Type} `{NT : Num T}.
(** any number of bins, also none *)
Definition hok (h : hist T) : Prop :=
  (0 <= hi_n h < 2 ^ 31)%Z /\ Z.of_nat (length (hi_centres h)) = hi_n h /\ Z.of_nat (length (hi_values h)) = hi_n h.
Lemma kept_hok h h' : kept h h' -> hok h -> hok h'.
Proof. intros ((_ & _ & _ & _ & A & B) & C). unfold hok. rewrite A, B, C. auto. Qed.
Lemma app_named_sat ps : forall h, hok h -> sat (app_named h ps) hok.
Proof.
  induction ps as [|p ps IH]; intros h HW; cbn [app_named]; [exact HW|].
  apply sat_bind with (Q := hok); [|auto]. destruct (String.eqb _ _); [|exact HW].
  destruct (Z.eq_dec (hi_n h) 0) as [Z0|NZ].
  - unfold app_particle. rewrite Z0. exact I.
  - rewrite app_energy by exact NZ. destruct HW as (A & B & C). assert (W : hwf h) by (split; [lia|auto]).
    destruct (add_value_ok h (get_energy p) W) as (h1 & -> & ((W1 & W2) & W3) & _). cbn [sat]. split; [lia|exact W3].
Qed.
Definition hoks (n : nat) (hs : list (hist T)) : Prop := Forall hok hs /\ length hs = n.
Lemma Forall_upd {A} (P : A -> Prop) l : forall i a, Forall P l -> P a -> Forall P (upd l i a).
Proof. induction l; intros [|i] x F X; cbn; inversion F; subst; auto. Qed.
Lemma hist_fill_sat n i t ps hs : hoks n hs -> (i < n)%nat -> sat (hist_fill i t ps hs) (hoks n).
Proof.
  intros [F L] HI. unfold hist_fill. destruct (nth_error hs i) as [h|] eqn:EN; [|apply nth_error_None in EN; lia].
  apply sat_bind with (Q := hok).
  - apply app_named_sat. rewrite Forall_forall in F. apply F. eapply nth_error_In; eauto.
  - intros h' _ HW. cbn [sat]. split; [apply Forall_upd; auto|rewrite length_upd; exact L].
Qed.
End Hists.

(** ** One event *)
Section Event.
Context {T : Type} `{NT : Num T}.
Variable E : Engine T.
Variable w : world T.
Hypothesis PO : forall pr, In pr (w_procs w) -> process_ok pr.
Variable htimes : list T.
Notation n := (length htimes).
Definition stok (s : state E (list (hist T))) : Prop := wf (st_ev _ s) /\ hoks n (st_hist _ s) /\ (st_hc _ s <= n)%nat.

Lemma step_sat s : stok s -> sat (time_step E w htimes hist_fill s) stok.
Proof.
  intros (W & HK & HC). unfold time_step. apply sat_bind with (Q := stok).
  - unfold hist_check. destruct (nth_error htimes (st_hc _ s)) as [ht|] eqn:EN; [|split; auto].
    assert (HL : (st_hc _ s < n)%nat) by (apply nth_error_Some; congruence).
    destruct (nleb ht (st_time _ s)); [|split; auto]. apply sat_bind with (Q := hoks n); [apply hist_fill_sat; auto|].
    intros h _ HH. cbn [sat]. unfold stok. cbn. split; [exact W|]. split; [exact HH|lia].
  - intros s1 _ (W1 & HK1 & HC1). destruct (pass_safe E w (st_ev _ s1) (st_rng _ s1) PO W1) as [(l' & g' & -> & W')| ->]; cbn [bind sat]; [|exact I].
    unfold stok. cbn. auto.
Qed.
Lemma loop_sat tEnd fuel : forall s, stok s -> sat (time_loop E w htimes hist_fill fuel tEnd s) stok.
Proof.
  induction fuel as [|f IH]; intros s HS; cbn; destruct (nltb _ _); auto; [exact I|].
  apply sat_bind with (Q := stok); [apply step_sat; auto|auto].
Qed.
Lemma rest_sat k : forall s, stok s -> (st_hc _ s + k = n)%nat -> sat (fill_rest E hist_fill k s) stok.
Proof.
  induction k as [|k IH]; intros s (W & HK & HC) HN; cbn [fill_rest]; [split; auto|].
  apply sat_bind with (Q := hoks n); [apply hist_fill_sat; auto; lia|]. intros h _ HH. apply IH; [|cbn; lia]. unfold stok. cbn. split; [auto|split; [auto|lia]].
Qed.
Lemma run_sat fuel tEnd l g hs : wf l -> hoks n hs -> sat (run_event E w htimes hist_fill fuel tEnd l g hs) stok.
Proof.
  intros W HK. unfold run_event. apply sat_bind with (Q := stok); [apply loop_sat; unfold stok; cbn; split; [auto|split; [auto|lia]]|].
  intros s _ HS. apply rest_sat; [exact HS|]. destruct HS as (_ & _ & HC). lia.
Qed.

(** a source that still has samples, or none *)
Definition srcok (s : source T) : Prop := wf_source s /\ (0 <= s_count s <= s_nPart s)%Z.
Lemma generate_sat s g : srcok s -> sat (generate_list E s g) (fun r => srcok (snd (fst r)) /\ s_nPart (snd (fst r)) = s_nPart s).
Proof.
  intros ((Hn & L1 & L2 & L3 & L4 & L5 & L6) & Hc). unfold generate_list. destruct (Z.eqb_spec (s_count s) (s_nPart s)); [exact I|].
  cbv zeta. rewrite !(get_Z _ _ n0) by lia. cbn [bind].
  apply sat_bind with (Q := fun _ => True).
  - unfold make_primary. repeat (destruct (is_name _ _ _); [destruct (_ : _ * _); exact I|]). exact I.
  - intros [p g'] _ _. cbn [sat fst snd]. unfold srcok, wf_source, with_count. cbn. rewrite u32_id by lia. split; [|reflexivity]. split; [|lia]. auto 10.
Qed.
End Event.

(** ** The output manager *)
Ltac ob HX := let f := fresh "s" in let HF := fresh "HF" in apply bind_ok in HX; destruct HX as (f & HF & HX).
Section Out.
Context {T : Type} `{NT : Num T}.
Variable code : objinfo.
Variable garbage : T.
Variable fld : field T.

(** the handle of the last group does not dangle, and will not *)
Definition J (o : om T) : Prop := (objinfo_inverted code /\ tidy o) \/ (objinfo_documented code /\ untouched o).
Lemma J_live o : J o -> f_group (om_file o) <> GFreed.
Proof. intros [[_ (G & _)]|[_ U]]; [congruence|]. unfold untouched in U. rewrite U. discriminate. Qed.
Lemma J_exec o x o' : tidy_call x -> J o -> exec code garbage fld o x = Ok o' -> J o'.
Proof. intros TC [[CI TD]|[CD U]] X; [left|right]; (split; [assumption|]); [eapply exec_tidy; eauto|eapply exec_doc; eauto]. Qed.
Lemma J_exec_all os : Forall tidy_call os -> forall o o', J o -> exec_all code garbage fld o os = Ok o' -> J o'.
Proof. induction 1 as [|x os TC F IH]; intros o o' HJ X; cbn [exec_all] in X; [injection X; intros <-; auto|]. ob X. eapply IH; [|exact X]. eapply J_exec; eauto. Qed.
Lemma J_new o : objinfo_inverted code \/ objinfo_documented code -> om_new code None = Ok o -> J o.
Proof.
  intros [CI|CD] X; [left|right]; (split; [assumption|]); [eapply new_tidy; eauto|]. destruct (om_new_doc (T := T) code None CD) as (s & N & U). congruence.
Qed.

Lemma group_sat (o : om T) name : f_group (om_file o) <> GFreed -> sat (o_group code o name) (fun _ => True).
Proof.
  intros G. unfold o_group, add_group. destruct (f_group (om_file o)); [| |congruence]; cbn [bind];
    (destruct (Bool.eqb _ _); [|exact I]); (destruct (create_cases (f_tree (om_file o)) (path name) (@Grp T)) as [->| ->]; exact I).
Qed.
Lemma array_sat (o : om T) buf dims name : (zprod dims <= Z.of_nat (length buf))%Z -> sat (o_array o buf dims name) (fun _ => True).
Proof.
  intros HL. unfold o_array, add_array. destruct (create_cases (f_tree (om_file o)) (path name) (Dat dims (firstn (Z.to_nat (zprod dims)) buf))) as [->| ->]; [exact I|].
  cbn [bind]. destruct (Z.ltb_spec (Z.of_nat (length buf)) (zprod dims)); [lia|exact I].
Qed.
Lemma out_arrays_sat (o : om T) name pos mom a b time gamma : Z.of_nat (length pos) = (a * 3)%Z -> Z.of_nat (length mom) = (b * 3)%Z ->
  sat (out_arrays o name pos mom a b time gamma) (fun _ => True).
Proof.
  intros HA HB. unfold out_arrays. apply sat_bind with (Q := fun _ => True); [apply array_sat; cbn [zprod]; lia|]. intros o1 _ _.
  apply sat_bind with (Q := fun _ => True); [apply array_sat; cbn [zprod]; lia|]. intros o2 _ _.
  apply sat_bind with (Q := fun _ => True); [apply array_sat; cbn [zprod]; unfold len; lia|]. intros o3 _ _. apply array_sat. cbn [zprod]; unfold len; lia.
Qed.
Lemma om_new_sat : objinfo_inverted code \/ objinfo_documented code -> sat (om_new (T := T) code None) J.
Proof.
  intros C. apply sat_weak with (P := fun _ => True); [|intros o X _; apply J_new; auto].
  destruct C as [CI|CD]; [rewrite om_new_inv by exact CI; exact I|]. destruct (om_new_doc (T := T) code None CD) as (s & -> & _). exact I.
Qed.

(** tracks *)
Lemma tracks_sat ts : forall i o, J o -> sat (output_tracks_from code o i ts) (fun _ => True).
Proof.
  induction ts as [|k ts IH]; intros i o HJ; cbn [output_tracks_from]; [exact I|].
  assert (ONE : forall o1 o2, o_group code o ("Particles/ParticleTrack/Event" ++ to_string i) = Ok o1 ->
     out_arrays o1 ("Particles/ParticleTrack/Event" ++ to_string i) (flat_scaled (scale_length o1) (tk_pos k)) (flat_scaled (scale_momentum o1) (tk_mom k))
                  (len (tk_pos k)) (len (tk_mom k))
                  (map (fun x => nmul x (scale_time o1)) (tk_time k)) (map (fun x => nmul x (scale_time o1)) (tk_gamma k)) = Ok o2 -> J o2).
  { intros o1 o2 X1 X2. destruct HJ as [[CI TD]|[CD U]]; [left|right]; (split; [assumption|]).
    - apply (tracks_tidy code CI [k] i o o2 TD). cbn [output_tracks_from]. cbv zeta. rewrite X1. cbn [bind]. rewrite X2. reflexivity.
    - apply (output_tracks_doc code [k] CD i o o2 U). cbn [output_tracks_from]. cbv zeta. rewrite X1. cbn [bind]. rewrite X2. reflexivity. }
  cbv zeta. apply sat_bind with (Q := fun _ => True); [apply group_sat, J_live, HJ|]. intros o1 X1 _.
  apply sat_bind with (Q := fun _ => True); [apply out_arrays_sat; apply flat_scaled_length|]. intros o2 X2 _. apply IH. eapply ONE; eauto.
Qed.
Lemma once_sat (b : bool) (o : om T) g (wth : om T -> om T) : J o ->
  sat (if b then Ok o else let* s := o_group code o g in Ok (wth s)) (fun _ => True).
Proof.
  intros HJ. destruct b; [exact I|]. apply sat_bind with (Q := fun _ => True); [apply group_sat, J_live, HJ|]. intros s _ _. exact I.
Qed.
Lemma once_J_list (o o' : om T) : J o ->
  (if om_list o then Ok o else let* s := o_group code o "Particles/ParticleTrack" in Ok (with_list s)) = Ok o' -> J o'.
Proof.
  intros [[CI TD]|[CD U]] X; [left|right]; (split; [assumption|]).
  - eapply (once_tidy code CI (om_list o) o "Particles/ParticleTrack" (@with_list T)); [exact TD| |intros x; split; [reflexivity|repeat split; auto]| |exact X].
    + intros F. apply absent; [auto|reflexivity|]. intros L. destruct (listed_two _ _ _ L eq_refl) as [[Y _]|[[Y _]|[_ Y]]]; [discriminate|discriminate|congruence].
    + intros x. do 3 right. left. auto.
  - eapply (once_doc code (om_list o) o "Particles/ParticleTrack" (@with_list T)); [exact CD|exact U|reflexivity|exact X].
Qed.
Lemma output_track_sat o : J o -> sat (output_track code o) (fun _ => True).
Proof.
  intros HJ. unfold output_track. apply sat_bind with (Q := fun _ => True); [apply once_sat, HJ|]. intros o1 X _. apply tracks_sat. eapply once_J_list; eauto.
Qed.

(** the primary rows: the index wraps at 2^32 but stays inside the buffer *)
Lemma put_row_sat vs : forall (buf : list T) i, (forall k, (0 <= k < Z.of_nat (length vs))%Z -> (u32 (i + k) < Z.of_nat (length buf))%Z) ->
  sat (put_row buf i vs) (fun b => length b = length buf).
Proof.
  induction vs as [|v vs IH]; intros buf i HK; cbn [put_row]; [reflexivity|]. cbn [length] in HK.
  pose proof (HK 0%Z ltac:(lia)) as H0. rewrite Z.add_0_r in H0. unfold put. pose proof (Z.mod_pos_bound i (2 ^ 32) ltac:(lia)) as HM. fold (u32 i) in HM.
  destruct (Z.ltb_spec (u32 i) 0); [lia|]. destruct (Z.leb_spec (Z.of_nat (length buf)) (u32 i)); [lia|]. cbn [orb bind].
  apply sat_weak with (P := fun b => length b = length (upd buf (Z.to_nat (u32 i)) v)); [|intros b _ ->; apply length_upd].
  apply IH. intros k HKk. rewrite length_upd. replace (i + 1 + k)%Z with (i + (1 + k))%Z by lia. apply HK. lia.
Qed.
Lemma prime_sat prim : (forall r, In r prim -> exists v, r = Some v /\ length v = 8%nat) -> forall N i (buf : list T), length buf = (8 * N)%nat -> (i + length prim <= N)%nat ->
  sat (prime_rows prim (Z.of_nat i) buf) (fun b => length b = length buf).
Proof.
  induction prim as [|r prim IH]; intros HR N i buf HB HI; cbn [prime_rows]; [reflexivity|].
  destruct (HR r (or_introl eq_refl)) as (v & -> & HV).
  pose proof (read_row_eq [] v []) as RR. cbn [app length] in RR. rewrite app_nil_r, HV in RR. change (Z.of_nat 0) with 0%Z in RR. rewrite RR by lia. cbn [bind].
  cbn [length] in HI. apply sat_bind with (Q := fun b => length b = length buf).
  - apply put_row_sat. intros k HK. rewrite HV in HK. rewrite HB. unfold u32. replace (Z.of_nat i * 8)%Z with (8 * Z.of_nat i)%Z by lia.
    change (2 ^ 32)%Z with (8 * 2 ^ 29)%Z. rewrite Z.mul_mod_distr_l by lia.
    assert (HM : (0 <= Z.of_nat i mod 2 ^ 29 < 2 ^ 29)%Z) by (apply Z.mod_pos_bound; lia).
    rewrite Z.mod_small by lia. assert (HD : (Z.of_nat i mod 2 ^ 29 <= Z.of_nat i)%Z) by (apply Z.mod_le; lia). lia.
  - intros b _ HL. apply sat_weak with (P := fun c => length c = length b); [|intros c _ ->; exact HL].
    replace (Z.of_nat i + 1)%Z with (Z.of_nat (S i)) by lia. apply IH with (N := N); [intros q Hq; apply HR; right; exact Hq|congruence|lia].
Qed.

Lemma rows_stored n first fin (o o' : om T) : same_rows o o' -> stored n first fin o -> stored n first fin o'.
Proof. intros (A & B & C & D) [S1 S2]. split; [congruence|]. rewrite B, C, D. exact S2. Qed.

Definition three : list string := ["Electron"; "Positron"; "Photon"].
Lemma out_species_sat (o : om T) tb (rows : list (list T)) name : total (tb_count tb) = Z.of_nat (length rows) -> (forall r, In r rows -> length r = 8%nat) ->
  sat (out_species o tb (concat rows) name) (fun _ => True).
Proof.
  intros HT H8. unfold out_species. destruct (0 <? _)%Z; [|exact I]. apply array_sat. rewrite HT, concat_length8 by exact H8. cbn [zprod]. lia.
Qed.
Lemma output_source_sat n first fin (o : om T) : J o -> stored n first fin o ->
  (forall name, In name three -> (Z.of_nat (length (all_rows name n fin)) < 2 ^ 29)%Z) -> sat (output_source code garbage o) (fun _ => True).
Proof.
  intros HJ HS HB. unfold output_source.
  apply sat_bind with (Q := fun o1 => same_rows o o1).
  - apply sat_weak with (P := fun _ => True); [apply once_sat, HJ|]. intros o1 X _.
    eapply (once_rows code (om_source o) o "Particles/ParticleSource" (@with_source T)); [exact wr_source|exact X].
  - intros o1 _ R1. pose proof (rows_stored _ _ _ _ _ R1 HS) as S1.
    apply sat_bind with (Q := fun b => length b = (length (om_prim o1) * 8)%nat).
    + change 0%Z with (Z.of_nat 0). apply sat_weak with (P := fun b => length b = length (repeat garbage (length (om_prim o1) * 8))); [|intros b _ ->; apply repeat_length].
      apply prime_sat with (N := length (om_prim o1)); [|rewrite repeat_length; lia|lia].
      intros r HR. rewrite (proj1 S1) in HR. apply in_map_iff in HR. destruct HR as (v & <- & HV). apply in_map_iff in HV. destruct HV as (j & <- & _).
      eexists. split; [reflexivity|apply row_length].
    + intros pb _ HL. apply sat_bind with (Q := fun o2 => same_rows o1 o2).
      * apply sat_weak with (P := fun _ => True); [apply array_sat; rewrite HL; cbn [zprod]; unfold len; lia|]. intros o2 X _. eapply o_array_rows; eauto.
      * intros o2 _ R2. pose proof (rows_stored _ _ _ _ _ R2 S1) as S2.
        destruct (stored_buffer garbage n first fin o2 "Electron" (om_el o2) S2 ltac:(cbn; auto) (HB "Electron" ltac:(cbn; auto))) as [B1 T1].
        destruct (stored_buffer garbage n first fin o2 "Positron" (om_po o2) S2 ltac:(cbn; auto) (HB "Positron" ltac:(cbn; auto))) as [B2 T2].
        destruct (stored_buffer garbage n first fin o2 "Photon" (om_ph o2) S2 ltac:(cbn; auto) (HB "Photon" ltac:(cbn; auto))) as [B3 T3].
        rewrite B1, B2, B3. cbn [bind].
        apply sat_bind with (Q := fun o3 => same_rows o2 o3).
        { eapply sat_weak; [apply out_species_sat; [exact T1|apply all_rows8]|]. intros o3 X _. eapply out_species_rows; eauto. }
        intros o3 _ (_ & _ & R3 & R3'). rewrite <- R3 in T2. 
        apply sat_bind with (Q := fun o4 => same_rows o3 o4).
        { eapply sat_weak; [apply out_species_sat; [exact T2|apply all_rows8]|]. intros o4 X _. eapply out_species_rows; eauto. }
        intros o4 _ (_ & _ & _ & R4). apply out_species_sat; [congruence|apply all_rows8].
Qed.
Lemma output_events_sat (o : om T) (a b : bool) : J o ->
  (a = true -> exists n first fin, stored n first fin o /\ forall name, In name three -> (Z.of_nat (length (all_rows name n fin)) < 2 ^ 29)%Z) ->
  sat (output_events code garbage o a b) J.
Proof.
  intros HJ HA. apply sat_weak with (P := fun _ => True); [|intros o' X _; apply (J_exec o (OEvents a b) o'); [exact I|exact HJ|exact X]].
  unfold output_events. apply sat_bind with (Q := J).
  - destruct a; [|exact HJ]. destruct (HA eq_refl) as (n & first & fin & HS & HB).
    apply sat_weak with (P := fun _ => True); [eapply output_source_sat; eauto|]. intros o1 X _.
    apply (J_exec o (OEvents true false) o1); [exact I|exact HJ|]. cbn [exec]. unfold output_events. rewrite X. reflexivity.
  - intros o1 _ J1. destruct b; [|exact I]. apply output_track_sat, J1.
Qed.

(** histograms *)
Lemma out_hist_sat (o : om T) h : J o -> hok h -> sat (out_hist code o h) (fun _ => True).
Proof.
  intros HJ (A & B & C). unfold out_hist. cbv zeta. apply sat_bind with (Q := fun _ => True); [apply group_sat, J_live, HJ|]. intros o1 _ _.
  apply sat_bind with (Q := fun _ => True); [apply array_sat; cbn [zprod]; lia|]. intros o2 _ _. apply array_sat. cbn [zprod]. lia.
Qed.
Lemma write_sat hs : Forall hok hs -> Forall (fun h => path (hi_name h) <> []) hs -> forall o : om T, J o -> sat (write_histograms code o hs) J.
Proof.
  induction 1 as [|h hs HK F IH]; intros NE o HJ; cbn [write_histograms]; [exact HJ|]. inversion NE; subst.
  apply sat_bind with (Q := J); [|intros o1 _ J1; apply IH; auto].
  apply sat_weak with (P := fun _ => True); [apply out_hist_sat; auto|]. intros o1 X _. apply (J_exec o (OHist h) o1); auto.
Qed.
End Out.

(** ** The loops of the main program *)
Section Loops.
Context {T : Type} `{NT : Num T}.
Variable E : Engine T.
Variable code : objinfo.
Variable garbage : T.
Variable fuel : nat.
Variable w : world T.
Hypothesis PO : forall pr, In pr (w_procs w) -> process_ok pr.
Variable tEnd : T.

Definition omok (output : bool) (n : nat) (o : om T) : Prop := J code o /\ (output = true -> exists P F, slots n P F o).
Lemma one_event_sat output tracking n m j src (s : prog E) : srcok src -> (j < n)%nat -> omok output n (pg_om E s) -> hoks m (pg_hists E s) ->
  sat (one_event E garbage fuel w tEnd output tracking (Z.of_nat j) src s)
      (fun r => srcok (fst r) /\ s_nPart (fst r) = s_nPart src /\ omok output n (pg_om E (snd r)) /\ hoks m (pg_hists E (snd r))).
Proof.
  intros HS HJ [OJ OS] HH. unfold one_event.
  apply sat_bind with (1 := generate_sat E src (pg_rng E s) HS). intros [[l src1] g1] G [S1 N1]. cbn [fst snd] in S1, N1.
  destruct (generate_single _ _ _ _ _ _ G) as (p & P1 & P2 & P3 & P4 & _).
  assert (Q1 : sat (when output (pg_om E s) (fun o => store_primary o l (Z.of_nat j))) (omok output n)).
  { unfold when. destruct output; [|split; auto]. destruct (OS eq_refl) as (P & F & SL).
    destruct (store_primary_slots n P F (pg_om E s) l j p HJ SL P2) as (o' & X & SL' & _). rewrite X. cbn [sat]. split; [|eauto].
    apply (J_exec code garbage (w_field w) (pg_om E s) (OPrimary l (Z.of_nat j)) o'); [exact I|exact OJ|exact X]. }
  apply sat_bind with (1 := Q1). intros o1 _ [J1 SL1].
  assert (LE : length (map hi_time (pg_hists E s)) = m) by (rewrite map_length; apply HH).
  pose proof (run_sat E w PO (map hi_time (pg_hists E s)) fuel tEnd l g1 (pg_hists E s) P4) as RS. rewrite LE in RS. specialize (RS HH).
  apply sat_bind with (1 := RS). intros st R (W & HK & _). rewrite LE in HK.
  assert (FN : (pl_n (st_ev E st) < 2 ^ 29)%Z).
  { unfold wf in W. apply (run_extends E w) in R. destruct R as (M & _). rewrite M, P3 in W. unfold default_max in W. lia. }
  cbv zeta. set (fin := st_ev E st) in *.
  assert (Q2 : sat (when output o1 (fun o => store_final garbage o fin (Z.of_nat j))) (omok output n)).
  { unfold when. destruct output; [|split; auto]. destruct (SL1 eq_refl) as (P & F & SL).
    destruct (store_final_slots garbage n P F o1 fin j HJ SL FN) as (o' & X & SL' & _). rewrite X. cbn [sat]. split; [|eauto].
    apply (J_exec code garbage (w_field w) o1 (OFinal fin (Z.of_nat j)) o'); [exact I|exact J1|exact X]. }
  apply sat_bind with (1 := Q2). intros o2 _ [J2 SL2].
  assert (Q3 : sat (when tracking o2 (fun o => Ok (store_track o fin (Z.of_nat j)))) (omok output n)).
  { unfold when. destruct tracking; [|split; auto]. cbn [sat]. split; [|intros HO; destruct (SL2 HO) as (P & F & A & B); exists P, F; split; assumption].
    apply (J_exec code garbage (w_field w) o2 (OTrack fin (Z.of_nat j)) _ I J2). reflexivity. }
  apply sat_bind with (1 := Q3). intros o3 _ HO3. cbn [sat fst snd pg_om pg_hists]. auto.
Qed.
Lemma source_events_sat output tracking n m : forall k j src (s : prog E), srcok src -> (j + k <= n)%nat -> omok output n (pg_om E s) -> hoks m (pg_hists E s) ->
  sat (source_events E garbage fuel w tEnd output tracking k (Z.of_nat j) src s) (fun s' => omok output n (pg_om E s') /\ hoks m (pg_hists E s')).
Proof.
  induction k as [|k IH]; intros j src s HS HJ HO HH; cbn [source_events]; [cbn [sat]; auto|].
  apply sat_bind with (1 := one_event_sat output tracking n m j src s HS ltac:(lia) HO HH). intros [src1 s1] _ (A & B & C & D). cbn [fst snd] in *.
  replace (Z.of_nat j + 1)%Z with (Z.of_nat (S j)) by lia. apply IH; auto. lia.
Qed.

(** the final particles with a name in a sequence of events *)
Definition count_of (name : string) (evs : list (event T * event T)) : nat :=
  length (filter (fun p => String.eqb (p_name p) name) (flat_map (fun e => pl_items (snd e)) evs)).
Lemma count_rows name (evs : list (event T * event T)) : length (all_rows name (length evs) (last_of evs)) = count_of name evs.
Proof.
  unfold all_rows, count_of.
  assert (G : forall es pre, evs = pre ++ es ->
    length (flat_map (fun j => rows_of name (Z.of_nat j) (pl_items (last_of evs j))) (seq (length pre) (length es))) =
    length (filter (fun p => String.eqb (p_name p) name) (flat_map (fun e => pl_items (snd e)) es))).
  { induction es as [|e es IH]; intros pre HE; cbn [length seq flat_map]; [reflexivity|].
    rewrite filter_app, !app_length. f_equal.
    - unfold rows_of. rewrite map_length. unfold last_of. rewrite HE, app_nth2, Nat.sub_diag by lia. reflexivity.
    - specialize (IH (pre ++ [e])). rewrite app_length in IH. cbn [length] in IH. rewrite Nat.add_1_r in IH. apply IH. rewrite <- app_assoc. exact HE. }
  apply (G evs []). reflexivity.
Qed.
Definition few (os : bool * source T) : Prop := fst os = true -> forall g hs evs g' hs',
  events_of E fuel w tEnd (Z.to_nat (s_nPart (snd os))) (snd os) g hs evs g' hs' -> forall name, In name three -> (Z.of_nat (count_of name evs) < 2 ^ 29)%Z.

Lemma source_loop_sat tracking m : forall ss (s : prog E), Forall (fun os => srcok (snd os) /\ few os) ss -> J code (pg_om E s) -> hoks m (pg_hists E s) ->
  sat (source_loop E code garbage fuel w tEnd tracking ss s) (fun s' => J code (pg_om E s') /\ hoks m (pg_hists E s')).
Proof.
  induction ss as [|[output src] ss IH]; intros s HF HJ HH; cbn [source_loop]; [cbn [sat]; auto|]. inversion HF as [|? ? [SO FW] HF']; subst. cbn [fst snd] in SO, FW.
  set (n := Z.to_nat (s_nPart src)). set (o0 := if output then init_source (pg_om E s) (s_nPart src) else pg_om E s). cbv zeta.
  assert (NN : s_nPart src = Z.of_nat n) by (unfold n; destruct SO as (((A & _) & _) & _); lia).
  assert (O0 : omok output n o0).
  { unfold o0. split.
    - destruct output; [|exact HJ]. apply (J_exec code garbage (w_field w) (pg_om E s) (OInit (s_nPart src)) _ I HJ). reflexivity.
    - intros ->. rewrite NN. eexists _, _. apply init_slots. }
  change 0%Z with (Z.of_nat 0).
  apply sat_bind with (1 := source_events_sat output tracking n m n 0 src (mkProg E o0 (pg_hists E s) (pg_rng E s)) SO (le_n _) O0 HH).
  intros s1 X [[J1 _] H1]. apply (source_events_iff E code garbage (w_field w)) in X. cbn [pg_om pg_hists pg_rng] in X. destruct X as (evs & EV & RUN).
  assert (ST : output = true -> exists n first fin, stored n first fin (pg_om E s1) /\ forall name, In name three -> (Z.of_nat (length (all_rows name n fin)) < 2 ^ 29)%Z).
  { intros ->. destruct (events_sound _ _ _ _ _ _ _ _ _ _ _ EV) as [LE SND].
    set (dp := mkP PPhoton "" n0 n0 n0 n0 n0 false false (mkV n0 n0 n0) (mkV n0 n0 n0) [] [] [] [] : particle T). set (first := fun j => match pl_items (first_of evs j) with p :: _ => p | [] => dp end).
    assert (SJ : forall j, (j < n)%nat -> sound (first_of evs j, last_of evs j)).
    { intros j Hj. unfold first_of, last_of. rewrite <- surjective_pairing. rewrite Forall_forall in SND. apply SND. apply nth_In. lia. }
    assert (F1 : forall j, (j < n)%nat -> pl_get (first_of evs j) 0 = Ok (first j)).
    { intros j Hj. destruct (SJ j Hj) as ((p & A & B) & _). cbn [fst] in A, B. unfold first. rewrite A. exact B. }
    assert (F2 : forall j, (j < n)%nat -> (pl_n (last_of evs j) < 2 ^ 29)%Z).
    { intros j Hj. destruct (SJ j Hj) as (_ & _ & A). cbn [snd] in A. unfold default_max in A. lia. }
    pose proof (calls_of_event_calls tracking evs) as [EC1 EC2]. rewrite LE in EC1, EC2.
    assert (SL : slots n (fun _ => None) (fun _ => None) o0) by (unfold o0; rewrite NN; apply init_slots).
    destruct (run_calls code garbage (w_field w) n (first_of evs) (last_of evs) first _ F1 F2 EC2 _ _ o0 SL ltac:(discriminate) ltac:(discriminate))
      as (o' & P' & F' & RUN' & SL' & _ & _ & _ & _ & A5 & A6 & _).
    rewrite RUN in RUN'. injection RUN' as <-. exists n, first, (last_of evs). split.
    - apply (slots_stored n P' F'); [exact SL'| |]; intros j Hj; [apply A5|apply A6]; auto; apply EC1; exact Hj.
    - intros name HN. rewrite <- LE, count_rows. exact (FW eq_refl _ _ _ _ _ EV name HN). }
  pose proof (output_events_sat code garbage (w_field w) (pg_om E s1) output tracking J1 ST) as OE.
  apply sat_bind with (1 := OE). intros o1 _ J2. apply IH; cbn [pg_om pg_hists]; auto.
Qed.
End Loops.
