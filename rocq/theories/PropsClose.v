(** * Buffers and destruction of the output manager: C113 *)
From Coq Require Import String Ascii ZArith List Lia Permutation.
From Verif Require Import Num Outcome OutcomeFacts MCTools Particle ParticleList ParticleFacts Source Fields Units Process Sim Histogram Hdf5 Output OutFacts OutFile
  OutBuffers PropsOut Program ProgramFacts PropsProgram.
From Verif Require FileParser.
Import ListNotations.
Local Open Scope string_scope.
Local Open Scope list_scope.

(** ** Specification: what is allocated, and what the tables still point to at the end *)

Section Spec.
Context {T : Type}.
(** buffers allocated by a call *)
Definition allocated1 (o : op T) : nat :=
  match o with OPrimary _ _ => 1 | OFinal _ _ => 3 | OListProps _ _ => 1 | _ => 0 end.
Definition allocated (os : list (op T)) : nat := list_sum (map allocated1 os).

(** the calls after the last InitSource *)
Definition is_init (o : op T) : bool := match o with OInit _ => true | _ => false end.
Fixpoint since_init (os : list (op T)) : list (op T) :=
  match os with
  | [] => []
  | o :: t => if existsb is_init t then since_init t else if is_init o then t else os
  end.
(** the events whose first particle, or whose final particles, these calls store *)
Definition primaries (os : list (op T)) : list Z := flat_map (fun o => match o with OPrimary _ j => [j] | _ => [] end) os.
Definition finals (os : list (op T)) : list Z := flat_map (fun o => match o with OFinal _ j => [j] | _ => [] end) os.
(** one buffer per event stored since the last InitSource for the primaries, three for the final particles *)
Definition pointed (os : list (op T)) : nat :=
  length (nodup Z.eq_dec (primaries (since_init os))) + 3 * length (nodup Z.eq_dec (finals (since_init os))).
End Spec.

(** ** Facts *)

Definition somes (v : list (option nat)) : list nat := flat_map (fun p => match p with Some a => [a] | None => [] end) v.
Definition held_all (b : bufs) : list nat := somes (bf_prim b) ++ somes (bf_el b) ++ somes (bf_po b) ++ somes (bf_ph b).

Lemma somes_app u v : somes (u ++ v) = somes u ++ somes v.
Proof. apply flat_map_app. Qed.
Lemma somes_none n : somes (repeat None n) = [].
Proof. induction n; auto. Qed.
Lemma upd_split {A} (v : list A) : forall j x, nth_error v j = Some x -> exists l r, v = l ++ x :: r /\ length l = j /\ forall y, upd v j y = l ++ y :: r.
Proof.
  induction v as [|w v IH]; intros [|j] x E; try discriminate.
  - injection E; intros ->. exists [], v. auto.
  - destruct (IH _ _ E) as (l & r & -> & L & U). exists (w :: l), r. cbn. split; [auto|]. split; [lia|]. intros y. f_equal. apply U.
Qed.
Lemma somes_upd v j a : (j < length v)%nat ->
  exists o r, Permutation (somes v) (o ++ r) /\ Permutation (somes (upd v j (Some a))) (a :: r).
Proof.
  intros J. destruct (nth_error v j) as [x|] eqn:E; [|apply nth_error_None in E; lia].
  destruct (upd_split _ _ _ E) as (l & r & -> & _ & U). exists (somes [x]), (somes l ++ somes r). rewrite U. split.
  - rewrite somes_app. change (x :: r) with ([x] ++ r). rewrite somes_app. rewrite !app_assoc. apply Permutation_app_tail. apply Permutation_app_comm.
  - rewrite somes_app. change (Some a :: r) with ([Some a] ++ r). rewrite somes_app. cbn [somes flat_map app]. symmetry. apply Permutation_middle.
Qed.

(** the number of non-null pointers is the number of different indices stored *)
Definition taken (v : list (option nat)) (P : list Z) : Prop :=
  forall i, In i P <-> exists j a, i = Z.of_nat j /\ nth_error v j = Some (Some a).
Lemma somes_length v : length (somes v) = length (filter (fun j => match nth j v None with Some _ => true | None => false end) (seq 0 (length v))).
Proof.
  induction v as [|x v IH] using rev_ind; [reflexivity|]. rewrite somes_app, !app_length, seq_app, filter_app, app_length. cbn [length seq filter].
  assert (F : filter (fun j => match nth j (v ++ [x]) None with Some _ => true | None => false end) (seq 0 (length v)) =
              filter (fun j => match nth j v None with Some _ => true | None => false end) (seq 0 (length v))).
  { apply filter_ext_in. intros j J. apply in_seq in J. rewrite app_nth1 by lia. reflexivity. }
  rewrite F, <- IH. cbn [Nat.add]. rewrite app_nth2 by lia. rewrite Nat.sub_diag. destruct x; cbn; lia.
Qed.
Lemma taken_count v P : taken v P -> length (somes v) = length (nodup Z.eq_dec P).
Proof.
  intros K. rewrite somes_length. rewrite <- (map_length Z.of_nat). apply Permutation_length. apply NoDup_Permutation.
  - apply FinFun.Injective_map_NoDup; [intros a b; lia|]. apply NoDup_filter, seq_NoDup.
  - apply NoDup_nodup.
  - intros i. rewrite nodup_In, (K i), in_map_iff. split.
    + intros (j & <- & J). apply filter_In in J. destruct J as [J X]. apply in_seq in J. destruct (nth j v None) as [a|] eqn:N; [|discriminate].
      exists j, a. split; [reflexivity|]. rewrite <- N. apply nth_error_nth'. lia.
    + intros (j & a & -> & N). exists j. split; [reflexivity|]. apply filter_In. split.
      * apply in_seq. assert (j < length v)%nat by (apply nth_error_Some; congruence). lia.
      * rewrite (nth_error_nth _ _ _ N). reflexivity.
Qed.
Lemma taken_none n : taken (repeat None n) [].
Proof.
  intros i. split; [intros []|]. intros (j & a & _ & N). apply nth_error_In in N. apply repeat_spec in N. discriminate.
Qed.
Lemma taken_upd v P id a : taken v P -> (0 <= id)%Z -> (Z.to_nat id < length v)%nat -> taken (upd v (Z.to_nat id) (Some a)) (P ++ [id]).
Proof.
  intros K I L i. rewrite in_app_iff, (K i). cbn [In]. split.
  - intros [(j & c & -> & N)|[<-|[]]].
    + destruct (Nat.eq_dec (Z.to_nat id) j) as [<-|D].
      * exists (Z.to_nat id), a. split; [reflexivity|]. apply nth_error_upd_same. auto.
      * exists j, c. split; [reflexivity|]. rewrite nth_error_upd_other by auto. auto.
    + exists (Z.to_nat id), a. split; [lia|]. apply nth_error_upd_same. auto.
  - intros (j & c & -> & N). destruct (Nat.eq_dec (Z.to_nat id) j) as [E|D].
    + right. left. lia.
    + left. exists j, c. rewrite nth_error_upd_other in N by auto. auto.
Qed.
Lemma get_ok {A} (l : list A) i x : get l i = Ok x -> (0 <= i)%Z /\ (Z.to_nat i < length l)%nat.
Proof.
  unfold get. intros G. destruct (Z.ltb_spec i 0) as [L|L]; [discriminate|]. cbn [orb] in G.
  destruct (Z.leb_spec (Z.of_nat (length l)) i) as [M|M]; [discriminate|]. lia.
Qed.
Lemma b_set_ok v id a v' : b_set v id a = Ok v' -> (0 <= id)%Z /\ (Z.to_nat id < length v)%nat /\ v' = upd v (Z.to_nat id) (Some a).
Proof. unfold b_set. intros S. apply bind_ok in S. destruct S as (x & G & E). apply get_ok in G. injection E; intros <-. intuition. Qed.

Section Inv.
Context {T : Type}.
Lemma existsb_snoc (os : list (op T)) o : existsb is_init (os ++ [o]) = (existsb is_init os || is_init o)%bool.
Proof. rewrite existsb_app. cbn. rewrite Bool.orb_false_r. reflexivity. Qed.
Lemma since_snoc (os : list (op T)) o : since_init (os ++ [o]) = if is_init o then [] else since_init os ++ [o].
Proof.
  induction os as [|p os IH].
  - cbn. destruct (is_init o); reflexivity.
  - cbn [app since_init]. rewrite existsb_snoc, IH. destruct (existsb is_init os); cbn [orb].
    + reflexivity.
    + destruct (is_init o) eqn:I; [reflexivity|]. destruct (is_init p); reflexivity.
Qed.

Definition inv (os : list (op T)) (b : bufs) : Prop :=
  (length (bf_el b) = length (bf_prim b) /\ length (bf_po b) = length (bf_prim b) /\ length (bf_ph b) = length (bf_prim b)) /\
  NoDup (bf_heap b) /\ (forall a, In a (bf_heap b) -> a < bf_next b)%nat /\ length (bf_heap b) = allocated os /\
  NoDup (held_all b) /\ incl (held_all b) (bf_heap b) /\
  taken (bf_prim b) (primaries (since_init os)) /\
  taken (bf_el b) (finals (since_init os)) /\ taken (bf_po b) (finals (since_init os)) /\ taken (bf_ph b) (finals (since_init os)).

Lemma allocated_snoc (os : list (op T)) o : allocated (os ++ [o]) = (allocated os + allocated1 o)%nat.
Proof. unfold allocated. rewrite map_app, list_sum_app. cbn. lia. Qed.
Lemma primaries_snoc (os : list (op T)) o : primaries (os ++ [o]) = primaries os ++ primaries [o].
Proof. apply flat_map_app. Qed.
Lemma finals_snoc (os : list (op T)) o : finals (os ++ [o]) = finals os ++ finals [o].
Proof. apply flat_map_app. Qed.

Lemma nodup_app_r {A} (u v : list A) : NoDup (u ++ v) -> NoDup v.
Proof. induction u as [|a u IH]; [auto|]. cbn. intros N. inversion N. auto. Qed.
(** replacing one pointer by a fresh one keeps the pointers different *)
Lemma fresh_slot (pre v post : list nat) (old r w : list nat) a (h : list nat) :
  NoDup (pre ++ v ++ post) -> incl (pre ++ v ++ post) h -> ~ In a h -> Permutation v (old ++ r) -> Permutation w (a :: r) ->
  NoDup (pre ++ w ++ post) /\ incl (pre ++ w ++ post) (a :: h).
Proof.
  intros N I F P Q.
  assert (PP : Permutation (pre ++ v ++ post) (old ++ pre ++ r ++ post)).
  { rewrite P. rewrite <- app_assoc. rewrite !(app_assoc pre). rewrite (Permutation_app_comm pre old). rewrite <- !app_assoc. reflexivity. }
  assert (QQ : Permutation (pre ++ w ++ post) (a :: pre ++ r ++ post)).
  { rewrite Q. cbn [app]. rewrite <- Permutation_middle. reflexivity. }
  apply (Permutation_NoDup PP) in N. apply nodup_app_r in N. assert (IR : incl (pre ++ r ++ post) h).
  { intros x X. apply I. apply (Permutation_in _ (Permutation_sym PP)). apply in_app_iff. auto. }
  split.
  - apply (Permutation_NoDup (Permutation_sym QQ)). constructor; auto.
  - intros x X. apply (Permutation_in _ QQ) in X. destruct X as [->|X]; [left; auto|right; auto].
Qed.
Lemma fresh_upd (pre : list nat) v (post : list nat) j a (h : list nat) : (j < length v)%nat ->
  NoDup (pre ++ somes v ++ post) -> incl (pre ++ somes v ++ post) h -> ~ In a h ->
  NoDup (pre ++ somes (upd v j (Some a)) ++ post) /\ incl (pre ++ somes (upd v j (Some a)) ++ post) (a :: h).
Proof. intros J N I F. destruct (somes_upd v j a J) as (o & r & P & Q). eapply fresh_slot; eauto. Qed.

Lemma inv_new : inv [] bufs_new.
Proof.
  repeat split; cbn; try constructor; try (intros ? []); try easy; try (intros (j & a & _ & N); destruct j; discriminate).
Qed.
Lemma inv_step os o b b' : inv os b -> b_exec b o = Ok b' -> inv (os ++ [o]) b'.
Proof.
  intros ((L1 & L2 & L3) & N & F & A & HN & HI & T1 & T2 & T3 & T4) ST. unfold inv. rewrite since_snoc, allocated_snoc.
  destruct o; cbn [b_exec is_init allocated1] in ST |- *.
  all: try (injection ST; intros <-; rewrite primaries_snoc, finals_snoc; cbn [primaries finals flat_map]; rewrite !app_nil_r, Nat.add_0_r; repeat (split; auto); fail).
  - injection ST; intros <-. rewrite primaries_snoc, finals_snoc; cbn [primaries finals flat_map]; rewrite !app_nil_r. cbn [b_props bf_prim bf_el bf_po bf_ph bf_heap bf_next].
    split; [auto|]. split; [constructor; [intros X; apply F in X; lia|auto]|]. split; [intros a [<-|X]; [lia|apply F in X; lia]|]. split; [cbn; lia|].
    split; [exact HN|]. split; [intros a X; right; apply HI; exact X|]. auto.
  - injection ST; intros <-. cbn [b_init bf_prim bf_el bf_po bf_ph bf_heap bf_next]. unfold held_all. cbn [b_init bf_prim bf_el bf_po bf_ph bf_heap bf_next].
    rewrite !somes_none. cbn. split; [auto|]. split; [auto|]. split; [auto|]. split; [lia|]. split; [constructor|]. split; [intros ? []|].
    split; [apply taken_none|]. split; [apply taken_none|]. split; apply taken_none.
  - unfold b_primary in ST. apply bind_ok in ST. destruct ST as (v & G & E). apply b_set_ok in G. destruct G as (I & J & ->). injection E; intros <-.
    rewrite primaries_snoc, finals_snoc; cbn [primaries finals flat_map app]; rewrite !app_nil_r. cbn [bf_prim bf_el bf_po bf_ph bf_heap bf_next].
    assert (FR : ~ In (bf_next b) (bf_heap b)) by (intros X; apply F in X; lia).
    destruct (fresh_upd [] (bf_prim b) (somes (bf_el b) ++ somes (bf_po b) ++ somes (bf_ph b)) _ _ (bf_heap b) J HN HI FR) as [N' I'].
    rewrite length_upd. split; [auto|]. split; [constructor; auto|]. split; [intros a [<-|X]; [lia|apply F in X; lia]|]. split; [cbn; lia|].
    split; [exact N'|]. split; [exact I'|]. split; [apply taken_upd; auto|]. auto.
  - unfold b_final in ST. apply bind_ok in ST. destruct ST as (e & G1 & ST). apply b_set_ok in G1. destruct G1 as (I & J1 & ->).
    apply bind_ok in ST. destruct ST as (p & G2 & ST). apply b_set_ok in G2. destruct G2 as (_ & J2 & ->).
    apply bind_ok in ST. destruct ST as (g & G3 & ST). apply b_set_ok in G3. destruct G3 as (_ & J3 & ->). injection ST; intros <-.
    rewrite primaries_snoc, finals_snoc; cbn [primaries finals flat_map app]; rewrite !app_nil_r. cbn [bf_prim bf_el bf_po bf_ph bf_heap bf_next].
    rewrite !length_upd.
    assert (FR1 : ~ In (bf_next b) (bf_heap b)) by (intros X; apply F in X; lia).
    assert (FR2 : ~ In (S (bf_next b)) (bf_next b :: bf_heap b)) by (intros [X|X]; [lia|apply F in X; lia]).
    assert (FR3 : ~ In (S (S (bf_next b))) (S (bf_next b) :: bf_next b :: bf_heap b)) by (intros [X|[X|X]]; [lia|lia|apply F in X; lia]).
    unfold held_all in HN, HI |- *. cbn [bf_prim bf_el bf_po bf_ph].
    destruct (fresh_upd (somes (bf_prim b)) (bf_el b) (somes (bf_po b) ++ somes (bf_ph b)) (Z.to_nat id) (bf_next b) (bf_heap b) J1 HN HI FR1) as [N1 I1].
    rewrite app_assoc in N1, I1.
    destruct (fresh_upd _ (bf_po b) (somes (bf_ph b)) (Z.to_nat id) (S (bf_next b)) _ J2 N1 I1 FR2) as [N2 I2].
    rewrite app_assoc in N2, I2. rewrite <- (app_nil_r (somes (bf_ph b))) in N2, I2.
    destruct (fresh_upd _ (bf_ph b) [] (Z.to_nat id) (S (S (bf_next b))) _ J3 N2 I2 FR3) as [N3 I3].
    rewrite app_nil_r, <- !app_assoc in N3, I3.
    split; [auto|]. split; [repeat (constructor; auto)|]. split; [intros a [<-|[<-|[<-|X]]]; [lia|lia|lia|apply F in X; lia]|]. split; [cbn; lia|].
    split; [exact N3|]. split; [exact I3|]. split; [auto|]. split; [apply taken_upd; auto|]. split; apply taken_upd; auto.
Qed.
Lemma b_exec_all_snoc os (o : op T) : forall b, b_exec_all b (os ++ [o]) = let* b' := b_exec_all b os in b_exec b' o.
Proof. induction os as [|p os IH]; intros b; cbn. { destruct (b_exec b o); reflexivity. } destruct (b_exec b p); cbn; auto. Qed.
Lemma inv_run os : forall b, b_exec_all bufs_new os = Ok b -> inv os b.
Proof.
  induction os as [|o os IH] using rev_ind; intros b R.
  - injection R; intros <-. apply inv_new.
  - rewrite b_exec_all_snoc in R. apply bind_ok in R. destruct R as (b1 & R1 & R2). eapply inv_step; eauto.
Qed.

(** the destructor's loop frees what the four vectors hold *)
Lemma free_ptr_all p h : free_ptr p h = free_all (somes [p]) h.
Proof. destruct p; cbn; [destruct (free n h)|]; reflexivity. Qed.
Lemma free_all_app p q : forall h, free_all (p ++ q) h = let* h' := free_all p h in free_all q h'.
Proof. induction p as [|a p IH]; intros h; [reflexivity|]. cbn. destruct (free a h); cbn; auto. Qed.
Lemma free_slots_all pr : forall el po ph, length el = length pr -> length po = length pr -> length ph = length pr ->
  exists ps, Permutation ps (somes pr ++ somes el ++ somes po ++ somes ph) /\ forall h, free_slots pr el po ph h = free_all ps h.
Proof.
  induction pr as [|p pr IH]; intros [|e el] [|q po] [|g ph] L1 L2 L3; try discriminate.
  - exists []. split; [constructor|reflexivity].
  - cbn in L1, L2, L3. destruct (IH el po ph ltac:(lia) ltac:(lia) ltac:(lia)) as (ps & P & R).
    exists (somes [p] ++ somes [e] ++ somes [q] ++ somes [g] ++ ps). split.
    + rewrite P. change (p :: pr) with ([p] ++ pr). change (e :: el) with ([e] ++ el). change (q :: po) with ([q] ++ po). change (g :: ph) with ([g] ++ ph).
      rewrite !somes_app. apply (Permutation_count_occ Nat.eq_dec). intros x. rewrite !count_occ_app. lia.
    + intros h. cbn [free_slots]. rewrite !free_all_app, free_ptr_all. destruct (free_all (somes [p]) h) as [h1| | | |]; try reflexivity. cbn [bind].
      rewrite !free_all_app, free_ptr_all. destruct (free_all (somes [e]) h1) as [h2| | | |]; try reflexivity. cbn [bind].
      rewrite !free_all_app, free_ptr_all. destruct (free_all (somes [q]) h2) as [h3| | | |]; try reflexivity. cbn [bind].
      rewrite !free_all_app, free_ptr_all. destruct (free_all (somes [g]) h3) as [h4| | | |]; try reflexivity. cbn [bind]. apply R.
Qed.

Lemma delete_buffers (os : list (op T)) b : b_exec_all bufs_new os = Ok b ->
  exists h, free_slots (bf_prim b) (bf_el b) (bf_po b) (bf_ph b) (bf_heap b) = Ok h /\ Permutation (bf_heap b) (held_all b ++ h) /\
    length h + pointed os = allocated os.
Proof.
  intros R. destruct (inv_run _ _ R) as ((L1 & L2 & L3) & N & F & A & HN & HI & T1 & T2 & T3 & T4).
  destruct (free_slots_all _ _ _ _ L1 L2 L3) as (ps & P & E). rewrite E.
  destruct (free_all_perm ps (bf_heap b)) as (h & EH & PH).
  { apply (Permutation_NoDup (Permutation_sym P)). exact HN. }
  { intros a X. apply HI. apply (Permutation_in _ P X). }
  exists h. split; [exact EH|]. assert (PP : Permutation (bf_heap b) (held_all b ++ h)) by (rewrite PH, P; reflexivity). split; [exact PP|].
  rewrite <- A. rewrite (Permutation_length PP). unfold held_all, pointed. rewrite !app_length.
  rewrite (taken_count _ _ T1), (taken_count _ _ T2), (taken_count _ _ T3), (taken_count _ _ T4). lia.
Qed.
End Inv.

(** a call that succeeds stores its buffers at existing places *)
Section Exec.
Context {T : Type} `{Num T}.
Variable code : objinfo.
Variable garbage : T.
Variable fld : field T.

Definition same_shape (s : om T) (b : bufs) : Prop :=
  length (om_prim s) = length (bf_prim b) /\ length (tb_rows (om_el s)) = length (bf_el b) /\
  length (tb_rows (om_po s)) = length (bf_po b) /\ length (tb_rows (om_ph s)) = length (bf_ph b).
Definition same_rows (s s' : om T) : Prop := om_prim s' = om_prim s /\ om_el s' = om_el s /\ om_po s' = om_po s /\ om_ph s' = om_ph s.
Lemma rows_refl s : same_rows s s.
Proof. repeat split. Qed.
Lemma rows_trans a b c : same_rows a b -> same_rows b c -> same_rows a c.
Proof. intros (A1 & A2 & A3 & A4) (B1 & B2 & B3 & B4). repeat split; congruence. Qed.

Ltac ob HX := let f := fresh "s" in let HF := fresh "HF" in apply bind_ok in HX; destruct HX as (f & HF & HX).

Lemma o_group_rows s name s' : o_group code s name = Ok s' -> same_rows s s'.
Proof. unfold o_group. intros HX. ob HX. injection HX; intros <-. repeat split. Qed.
Lemma o_array_rows s buf dims name s' : o_array s buf dims name = Ok s' -> same_rows s s'.
Proof. unfold o_array. intros HX. ob HX. injection HX; intros <-. repeat split. Qed.
Lemma once_rows (b : bool) s (g : string) (w : om T -> om T) s' : (forall x, same_rows x (w x)) ->
  (if b then Ok s else let* s := o_group code s g in Ok (w s)) = Ok s' -> same_rows s s'.
Proof.
  intros HW HX. destruct b; [injection HX; intros <-; apply rows_refl|]. ob HX. injection HX; intros <-.
  eapply rows_trans; [eapply o_group_rows; eauto|apply HW].
Qed.
Lemma wr_single x : same_rows x (with_single x). Proof. repeat split. Qed.
Lemma wr_list x : same_rows x (with_list x). Proof. repeat split. Qed.
Lemma wr_source x : same_rows x (with_source x). Proof. repeat split. Qed.
Ltac rt := first [apply rows_refl | eapply rows_trans; [eassumption|rt] | eassumption].
Lemma out_arrays_rows s name pos mom a b time gamma s' : out_arrays s name pos mom a b time gamma = Ok s' -> same_rows s s'.
Proof. unfold out_arrays. intros HX. ob HX. ob HX. ob HX. apply o_array_rows in HF, HF0, HF1, HX. rt. Qed.
Lemma list_tracks_rows name ps : forall i s s', list_tracks_from code s name i ps = Ok s' -> same_rows s s'.
Proof.
  induction ps as [|p ps IH]; intros i s s' HX; cbn [list_tracks_from] in HX; [injection HX; intros <-; apply rows_refl|].
  destruct (negb (p_tracking p)); [discriminate|]. cbv zeta in HX. ob HX. ob HX. apply o_group_rows in HF. apply out_arrays_rows in HF0. apply IH in HX. rt.
Qed.
Lemma output_tracks_rows ts : forall i s s', output_tracks_from code s i ts = Ok s' -> same_rows s s'.
Proof.
  induction ts as [|k ts IH]; intros i s s' HX; cbn [output_tracks_from] in HX; [injection HX; intros <-; apply rows_refl|].
  cbv zeta in HX. ob HX. ob HX. apply o_group_rows in HF. apply out_arrays_rows in HF0. apply IH in HX. rt.
Qed.
Lemma out_species_rows s tb buf name s' : out_species s tb buf name = Ok s' -> same_rows s s'.
Proof. unfold out_species. destruct (0 <? _)%Z; intros HX; [eapply o_array_rows; eauto|injection HX; intros <-; apply rows_refl]. Qed.
Lemma output_events_rows s a b s' : output_events code garbage s a b = Ok s' -> same_rows s s'.
Proof.
  unfold output_events. intros HX. ob HX.
  assert (A : same_rows s s0).
  { destruct a; [|injection HF; intros <-; apply rows_refl]. unfold output_source in HF. ob HF. apply once_rows in HF0; [|apply wr_source].
    ob HF. ob HF. ob HF. ob HF. ob HF. ob HF. ob HF. apply o_array_rows in HF2. apply out_species_rows in HF6, HF7, HF. rt. }
  destruct b; [|injection HX; intros <-; auto]. unfold output_track in HX. ob HX. apply once_rows in HF0; [|apply wr_list]. apply output_tracks_rows in HX. rt.
Qed.
Lemma out_field_rows ts xs ys zs : forall i s s', out_field_from code garbage fld s i ts xs ys zs = Ok s' -> same_rows s s'.
Proof.
  assert (D : forall s g t d s', out_dir garbage fld s g t xs ys zs d = Ok s' -> same_rows s s').
  { intros s g t d s' HX. unfold out_dir in HX. cbv zeta in HX. ob HX. ob HX. ob HX. apply o_array_rows in HF1, HX. rt. }
  induction ts as [|t ts IH]; intros i s s' HX; cbn [out_field_from] in HX; [injection HX; intros <-; apply rows_refl|].
  cbv zeta in HX. ob HX. ob HX. ob HX. ob HX. apply o_group_rows in HF. apply D in HF0, HF1, HF2. apply IH in HX. rt.
Qed.

Lemma shape_rows s s' b : same_rows s s' -> same_shape s b -> same_shape s' b.
Proof. intros (A & B & C & D) (E & F & G & I). unfold same_shape. rewrite A, B, C, D. auto. Qed.
Lemma get_in {A} (l : list A) i : (0 <= i)%Z -> (Z.to_nat i < length l)%nat -> exists x, get l i = Ok x.
Proof.
  intros I L. unfold get. destruct (Z.ltb_spec i 0); [lia|]. destruct (Z.leb_spec (Z.of_nat (length l)) i); [lia|]. cbn [orb].
  destruct (nth_error l (Z.to_nat i)) eqn:N; [eauto|]. apply nth_error_None in N. lia.
Qed.
Lemma b_set_in v id a : (0 <= id)%Z -> (Z.to_nat id < length v)%nat -> b_set v id a = Ok (upd v (Z.to_nat id) (Some a)).
Proof. intros I L. unfold b_set. destruct (get_in v id I L) as [x ->]. reflexivity. Qed.
Lemma store_species_shape name id ps (tb tb' : table T) : store_species garbage name id ps tb = Ok tb' ->
  (0 <= id)%Z /\ (Z.to_nat id < length (tb_rows tb))%nat /\ length (tb_rows tb') = length (tb_rows tb).
Proof.
  unfold store_species. intros HX. ob HX. ob HX. cbv zeta in HX. ob HX. injection HX; intros <-. apply get_ok in HF0. cbn [tb_rows]. rewrite length_upd. intuition.
Qed.
Lemma exec_shape s o s' b : exec code garbage fld s o = Ok s' -> same_shape s b -> exists b', b_exec b o = Ok b' /\ same_shape s' b'.
Proof.
  intros HX SH. destruct o as [p name|l name|l name|n|l id|l id|l id|a c|ts xs ys zs|h]; cbn [exec b_exec] in HX |- *.
  - eexists; split; [reflexivity|]. eapply shape_rows; [|exact SH]. unfold single_particle in HX. ob HX. apply once_rows in HF; [|apply wr_single].
    destruct (negb (p_tracking p)); [discriminate|]. cbv zeta in HX. ob HX. ob HX. apply o_group_rows in HF1. apply out_arrays_rows in HX. rt.
  - eexists; split; [reflexivity|]. eapply shape_rows; [|exact SH]. unfold list_tracks in HX. ob HX. apply once_rows in HF; [|apply wr_list].
    ob HX. apply o_group_rows in HF0. apply list_tracks_rows in HX. rt.
  - eexists; split; [reflexivity|]. eapply shape_rows with (b := b_props b); [|exact SH]. unfold list_properties in HX. ob HX. apply once_rows in HF; [|apply wr_list].
    cbv zeta in HX. ob HX. apply o_group_rows in HF0. apply o_array_rows in HX. rt.
  - eexists; split; [reflexivity|]. injection HX; intros <-. unfold same_shape. cbn [init_source with_tables with_prim om_prim om_el om_po om_ph tb_rows b_init bf_prim bf_el bf_po bf_ph].
    rewrite !repeat_length. auto.
  - unfold store_primary in HX. ob HX. ob HX. injection HX; intros <-. apply get_ok in HF0. destruct SH as (A & B & C & D). destruct HF0 as [I L].
    unfold b_primary. cbv zeta. rewrite b_set_in by (auto; lia). cbn [bind]. eexists; split; [reflexivity|]. unfold same_shape. cbn. rewrite !length_upd. auto.
  - unfold store_final in HX. ob HX. ob HX. ob HX. injection HX; intros <-. apply store_species_shape in HF, HF0, HF1. destruct SH as (A & B & C & D).
    destruct HF as (I & L1 & M1), HF0 as (_ & L2 & M2), HF1 as (_ & L3 & M3).
    unfold b_final. cbv zeta. rewrite !b_set_in by (auto; lia). cbn [bind]. eexists; split; [reflexivity|]. unfold same_shape. cbn. rewrite !length_upd. repeat split; lia.
  - eexists; split; [reflexivity|]. injection HX; intros <-. exact SH.
  - eexists; split; [reflexivity|]. eapply shape_rows; [|exact SH]. eapply output_events_rows; eauto.
  - eexists; split; [reflexivity|]. eapply shape_rows; [|exact SH]. eapply out_field_rows; eauto.
  - eexists; split; [reflexivity|]. eapply shape_rows; [|exact SH]. unfold out_hist in HX. cbv zeta in HX. ob HX. ob HX. apply o_group_rows in HF. apply o_array_rows in HF0, HX. rt.
Qed.
Lemma exec_all_shape os : forall s s' b, exec_all code garbage fld s os = Ok s' -> same_shape s b -> exists b', b_exec_all b os = Ok b' /\ same_shape s' b'.
Proof.
  induction os as [|o os IH]; intros s s' b HX SH; cbn [exec_all b_exec_all] in HX |- *; [injection HX; intros <-; eauto|].
  ob HX. destruct (exec_shape _ _ _ _ HF SH) as (b1 & E1 & S1). rewrite E1. cbn [bind]. eapply IH; eauto.
Qed.
Lemma om_new_shape u s0 : om_new code u = Ok s0 -> same_shape s0 bufs_new.
Proof. unfold om_new. cbv zeta. intros HX. ob HX. ob HX. apply o_group_rows in HF, HF0, HX. eapply shape_rows; [eapply rows_trans; [exact HF|eapply rows_trans; eauto]|]. repeat split. Qed.

(** ** The handle of the last group *)
Definition root3 : list (list string) := [["Particles"]; ["Fields"]; ["Histograms"]].
(** the groups in the file, and what is in them *)
Definition listed (s : om T) (p : list string) : Prop :=
  In p root3 \/ (p = ["Particles"; "Single"] /\ om_single s = true) \/ (p = ["Particles"; "ParticleSource"] /\ om_source s = true) \/
  (p = ["Particles"; "ParticleTrack"] /\ om_list s = true) \/
  (exists q, q <> [] /\ p = "Particles" :: "Single" :: q /\ exists n, lookup (f_tree (om_file s)) (p ++ ["Position"]) = Some n) \/
  (exists q, q <> [] /\ p = "Particles" :: "ParticleTrack" :: q /\ exists n, lookup (f_tree (om_file s)) (p ++ ["Position"]) = Some n) \/
  (exists q, q <> [] /\ p = "Fields" :: q /\ exists n, lookup (f_tree (om_file s)) (p ++ ["E0"]) = Some n) \/
  (exists q, q <> [] /\ p = "Histograms" :: q /\ exists n, lookup (f_tree (om_file s)) (p ++ ["BinCentres"]) = Some n).
Definition tidy (s : om T) : Prop :=
  f_group (om_file s) = GLive /\ (forall p, lookup (f_tree (om_file s)) p = Some Grp -> listed s p) /\
  forall p d v, lookup (f_tree (om_file s)) p = Some (Dat d v) -> (3 <= length p)%nat.

Definition flags_le (s s' : om T) : Prop :=
  (om_single s = true -> om_single s' = true) /\ (om_source s = true -> om_source s' = true) /\ (om_list s = true -> om_list s' = true).
(** [s'] has the groups of [s] and those in [P] *)
Definition ext (s s' : om T) (P : list string -> Prop) : Prop :=
  f_group (om_file s') = GLive /\
  (forall p, lookup (f_tree (om_file s')) p = Some Grp -> lookup (f_tree (om_file s)) p = Some Grp \/ P p) /\
  (forall p d v, lookup (f_tree (om_file s')) p = Some (Dat d v) -> (exists d' v', lookup (f_tree (om_file s)) p = Some (Dat d' v')) \/ (3 <= length p)%nat) /\
  grows (f_tree (om_file s)) (f_tree (om_file s')) /\ flags_le s s'.
Definition none : list string -> Prop := fun _ => False.
Lemma ext_refl s P : f_group (om_file s) = GLive -> ext s s P.
Proof. intros G. split; [auto|]. split; [auto|]. split; [eauto|]. split; [apply grows_refl|repeat split; auto]. Qed.
Lemma ext_trans a b c P Q : ext a b P -> ext b c Q -> ext a c (fun p => P p \/ Q p).
Proof.
  intros (A1 & A2 & A0 & A3 & A4 & A5 & A6) (B1 & B2 & B0 & B3 & B4 & B5 & B6). split; [auto|]. split; [|split; [|split; [eapply grows_trans; eauto|repeat split; auto]]].
  - intros p L. apply B2 in L. destruct L as [L|L]; [|auto]. apply A2 in L. tauto.
  - intros p d v L. apply B0 in L. destruct L as [(d' & v' & L)|L]; [|auto]. apply A0 in L. auto.
Qed.
Lemma ext_weak a b (P Q : list string -> Prop) : (forall p, P p -> Q p) -> ext a b P -> ext a b Q.
Proof. intros W (A1 & A2 & A3 & A4). split; [auto|]. split; [|auto]. intros p L. apply A2 in L. destruct L; auto. Qed.
Lemma listed_mono s s' p : grows (f_tree (om_file s)) (f_tree (om_file s')) -> flags_le s s' -> listed s p -> listed s' p.
Proof.
  intros G (F1 & F2 & F3). unfold listed.
  intros [A|[[A B]|[[A B]|[[A B]|[(q & A & B & n & C)|[(q & A & B & n & C)|[(q & A & B & n & C)|(q & A & B & n & C)]]]]]]]; auto 7.
  - do 4 right. left. exists q. eauto.
  - do 5 right. left. exists q. eauto.
  - do 6 right. left. exists q. eauto.
  - do 7 right. exists q. eauto.
Qed.
Lemma tidy_ext s s' P : tidy s -> ext s s' P -> (forall p, P p -> listed s' p) -> tidy s'.
Proof.
  intros (G & L & D) (A1 & A2 & A0 & A3 & A4) PL. split; [auto|]. split.
  - intros p X. apply A2 in X. destruct X as [X|X]; [|auto]. eapply listed_mono; eauto.
  - intros p d v X. apply A0 in X. destruct X as [(d' & v' & X)|X]; eauto.
Qed.

Lemma o_array_ext s buf dims name s' : f_group (om_file s) = GLive -> (3 <= length (path name))%nat -> o_array s buf dims name = Ok s' -> ext s s' none.
Proof.
  intros G LN HX. pose proof (proj1 (proj1 (o_array_grows _ _ _ _ _ HX))) as GR. unfold o_array, add_array in HX. ob HX. injection HX; intros <-.
  ob HF. destruct (Z.ltb_spec (Z.of_nat (length buf)) (zprod dims)); [discriminate|]. injection HF; intros <-. apply create_ok in HF0. destruct HF0 as (_ & _ & ->).
  split; [exact G|]. split; [|split; [|split; [exact GR|repeat split; auto]]].
  - cbn [with_file om_file f_tree]. intros p L. rewrite lookup_cons in L. destruct (list_eq_dec string_dec p (path name)); [discriminate|auto].
  - cbn [with_file om_file f_tree]. intros p d v L. rewrite lookup_cons in L. destruct (list_eq_dec string_dec p (path name)) as [->|]; eauto.
Qed.
Lemma out_arrays_ext s name pos mom a b time gamma s' : f_group (om_file s) = GLive -> (2 <= length (path name))%nat -> out_arrays s name pos mom a b time gamma = Ok s' -> ext s s' none /\
  exists n, lookup (f_tree (om_file s')) (path name ++ ["Position"]) = Some n.
Proof.
  intros G LN HX.
  assert (L3 : forall x, path x <> [] -> (3 <= length (path (name ++ String "/"%char x)%string))%nat).
  { intros x X. replace (path (name ++ String "/"%char x)%string) with (path name ++ path x) by (symmetry; apply path_app). rewrite app_length.
    destruct (path x); [contradiction|]. cbn. lia. }
  unfold out_arrays in HX. ob HX. ob HX. ob HX. pose proof (proj2 (o_array_grows _ _ _ _ _ HF)) as LP.
  pose proof (o_array_ext _ _ _ _ _ G (L3 "Position" ltac:(discriminate)) HF) as E1. pose proof (o_array_ext _ _ _ _ _ (proj1 E1) (L3 "Momentum" ltac:(discriminate)) HF0) as E2.
  pose proof (o_array_ext _ _ _ _ _ (proj1 E2) (L3 "Time" ltac:(discriminate)) HF1) as E3. pose proof (o_array_ext _ _ _ _ _ (proj1 E3) (L3 "Gamma" ltac:(discriminate)) HX) as E4.
  split.
  - eapply ext_weak; [|eapply ext_trans; [exact E1|eapply ext_trans; [exact E2|eapply ext_trans; [exact E3|exact E4]]]]. unfold none. tauto.
  - eexists. apply E4, E3, E2. replace (path name ++ ["Position"]) with (path (name ++ "/Position")%string) by apply path_app. exact LP.
Qed.

(** a group followed by a data set [x] in it: the group is new *)
Hypothesis CI : objinfo_inverted code.
Lemma inverted_existing (s : om T) g s1 : o_group code s g = Ok s1 -> exists_ (f_tree (om_file s)) (path g) = true -> f_tree (om_file s1) = f_tree (om_file s).
Proof.
  destruct CI as [CT CF]. unfold o_group, add_group. intros HX E. ob HX. injection HX; intros <-. ob HF. rewrite E in HF.
  destruct (Z.eqb_spec (code true) 0); [contradiction|]. cbn [negb Bool.eqb] in HF. injection HF; intros <-. reflexivity.
Qed.
Lemma inverted_new (s : om T) g s1 : f_group (om_file s) = GLive -> o_group code s g = Ok s1 -> exists_ (f_tree (om_file s)) (path g) = false ->
  ext s s1 (eq (path g)).
Proof.
  destruct CI as [CT CF]. intros G HX E. pose proof (proj1 (o_group_grows _ _ _ _ HX)) as GR. unfold o_group, add_group in HX. ob HX. injection HX; intros <-. ob HF. rewrite E in HF. rewrite CF in HF.
  cbn [Z.eqb negb Bool.eqb] in HF. ob HF. injection HF; intros <-. apply create_ok in HF1. destruct HF1 as (_ & _ & ->).
  split; [reflexivity|]. split; [|split; [|split; [exact GR|repeat split; auto]]].
  - cbn [with_file om_file f_tree]. intros p L. rewrite lookup_cons in L. destruct (list_eq_dec string_dec p (path g)); auto.
  - cbn [with_file om_file f_tree]. intros p d v L. rewrite lookup_cons in L. destruct (list_eq_dec string_dec p (path g)); [discriminate|eauto].
Qed.
Lemma removelast_snoc {A} (l : list A) x : removelast (l ++ [x]) = l.
Proof. rewrite removelast_app by discriminate. cbn. apply app_nil_r. Qed.
Lemma group_then (s s1 s2 : om T) g x buf dims : tidy s -> path g <> [] -> path x = [x] ->
  (lookup (f_tree (om_file s)) (path g) = Some Grp -> exists n, lookup (f_tree (om_file s)) (path g ++ [x]) = Some n) ->
  o_group code s g = Ok s1 -> o_array s1 buf dims (g ++ String "/"%char x)%string = Ok s2 -> ext s s1 (eq (path g)).
Proof.
  intros (G & _) NE PX CH GR AR. apply inverted_new; auto. destruct (exists_ (f_tree (om_file s)) (path g)) eqn:E; [exfalso|reflexivity].
  pose proof (inverted_existing _ _ _ GR E) as ST. unfold o_array, add_array in AR. ob AR. ob HF. apply create_ok in HF0. destruct HF0 as (A & B & _).
  assert (PP : path (g ++ String "/"%char x)%string = path g ++ [x]) by (transitivity (path g ++ path x); [apply path_app|rewrite PX; reflexivity]).
  rewrite PP, ST in A, B. rewrite removelast_snoc in B. unfold is_group in B. destruct (path g) as [|a r] eqn:EP; [contradiction|].
  destruct (lookup (f_tree (om_file s)) (a :: r)) as [[|dd vv]|] eqn:LK; try discriminate.
  destruct (CH eq_refl) as [n C]. unfold exists_ in A. cbn [app] in A, C. rewrite C in A. discriminate.
Qed.
(** a listed group of a kind has its data set *)
Lemma listed_single s q : listed s ("Particles" :: "Single" :: q) -> q <> [] -> exists n, lookup (f_tree (om_file s)) (("Particles" :: "Single" :: q) ++ ["Position"]) = Some n.
Proof.
  intros [A|[[A B]|[[A B]|[[A B]|[(r & A & B & n & C)|[(r & A & B & n & C)|[(r & A & B & n & C)|(r & A & B & n & C)]]]]]]] NE; try discriminate; eauto.
  - cbn in A. destruct A as [A|[A|[A|[]]]]; discriminate.
  - injection A; intros ->. contradiction.
Qed.
Lemma listed_track s q : listed s ("Particles" :: "ParticleTrack" :: q) -> q <> [] -> exists n, lookup (f_tree (om_file s)) (("Particles" :: "ParticleTrack" :: q) ++ ["Position"]) = Some n.
Proof.
  intros [A|[[A B]|[[A B]|[[A B]|[(r & A & B & n & C)|[(r & A & B & n & C)|[(r & A & B & n & C)|(r & A & B & n & C)]]]]]]] NE; try discriminate; eauto.
  - cbn in A. destruct A as [A|[A|[A|[]]]]; discriminate.
  - injection A; intros ->. contradiction.
Qed.
Lemma listed_field s q : listed s ("Fields" :: q) -> q <> [] -> exists n, lookup (f_tree (om_file s)) (("Fields" :: q) ++ ["E0"]) = Some n.
Proof.
  intros [A|[[A B]|[[A B]|[[A B]|[(r & A & B & n & C)|[(r & A & B & n & C)|[(r & A & B & n & C)|(r & A & B & n & C)]]]]]]] NE; try discriminate; eauto.
  cbn in A. destruct A as [A|[A|[A|[]]]]; try discriminate. injection A; intros <-. contradiction.
Qed.
Lemma listed_hist s q : listed s ("Histograms" :: q) -> q <> [] -> exists n, lookup (f_tree (om_file s)) (("Histograms" :: q) ++ ["BinCentres"]) = Some n.
Proof.
  intros [A|[[A B]|[[A B]|[[A B]|[(r & A & B & n & C)|[(r & A & B & n & C)|[(r & A & B & n & C)|(r & A & B & n & C)]]]]]]] NE; try discriminate; eauto.
  cbn in A. destruct A as [A|[A|[A|[]]]]; try discriminate. injection A; intros <-. contradiction.
Qed.

(** the group created once: Particles/Single, Particles/ParticleSource, Particles/ParticleTrack; nothing else can have made it *)
Lemma once_tidy (b : bool) s (g : string) (w : om T -> om T) s' : tidy s -> (b = false -> exists_ (f_tree (om_file s)) (path g) = false) ->
  (forall x, om_file (w x) = om_file x /\ flags_le x (w x)) -> (forall x, listed (w x) (path g)) ->
  (if b then Ok s else let* s := o_group code s g in Ok (w s)) = Ok s' -> tidy s'.
Proof.
  intros TD NE W LS HX. destruct b; [injection HX; intros <-; exact TD|]. ob HX. injection HX; intros <-.
  pose proof (inverted_new _ _ _ (proj1 TD) HF (NE eq_refl)) as E. apply (tidy_ext s (w s0) (eq (path g))); [auto| |intros p <-; apply LS].
  destruct E as (E1 & E2 & E0 & E3 & E4). destruct (W s0) as (W1 & W2). unfold ext. rewrite W1. split; [auto|]. split; [auto|]. split; [auto|]. split; [auto|].
  destruct E4 as (? & ? & ?), W2 as (? & ? & ?). repeat split; auto.
Qed.

Lemma absent s g : tidy s -> (length (path g) = 2)%nat -> ~ listed s (path g) -> exists_ (f_tree (om_file s)) (path g) = false.
Proof.
  intros (G & L & D) LN NL. unfold exists_. destruct (path g) as [|a r] eqn:E; [discriminate|].
  destruct (lookup (f_tree (om_file s)) (a :: r)) as [[|d v]|] eqn:K; [|apply D in K; lia|reflexivity]. apply L in K. contradiction.
Qed.
Lemma listed_two s x y : listed s ["Particles"; x] -> x = y ->
  (y = "Single" /\ om_single s = true) \/ (y = "ParticleSource" /\ om_source s = true) \/ (y = "ParticleTrack" /\ om_list s = true).
Proof.
  intros [A|[[A B]|[[A B]|[[A B]|[(r & A & B & n & C)|[(r & A & B & n & C)|[(r & A & B & n & C)|(r & A & B & n & C)]]]]]]] <-; try discriminate.
  - cbn in A. destruct A as [A|[A|[A|[]]]]; discriminate.
  - injection A; intros ->. auto.
  - injection A; intros ->. auto.
  - injection A; intros ->. auto.
  - injection B; intros <-. contradiction.
  - injection B; intros <-. contradiction.
Qed.

(** calls for which the group is never asked for twice *)
Definition tidy_call (o : op T) : Prop :=
  match o with
  | OListTracks _ _ | OListProps _ _ => False
  | OSingle _ name => path name <> []
  | OHist h => path (hi_name h) <> []
  | _ => True
  end.

(** a group with a history in it *)
Lemma history_tidy s s0 s1 g kind q pos mom a b time gamma : tidy s -> (kind = "Single" \/ kind = "ParticleTrack") -> q <> [] -> path g = "Particles" :: kind :: q ->
  o_group code s g = Ok s0 -> out_arrays s0 g pos mom a b time gamma = Ok s1 -> tidy s1.
Proof.
  intros TD K NE PG HF HX. pose proof HX as OA. unfold out_arrays in OA. ob OA.
  assert (E : ext s s0 (eq (path g))).
  { eapply (group_then s s0 _ g "Position" _ _ TD); [rewrite PG; discriminate|reflexivity| |exact HF|exact HF0]. rewrite PG. intros L. apply TD in L.
    destruct K as [->| ->]; [apply listed_single|apply listed_track]; auto. }
  destruct (out_arrays_ext _ _ _ _ _ _ _ _ _ (proj1 E) ltac:(rewrite PG; cbn; lia) HX) as [E2 [n LP]].
  apply (tidy_ext s s1 _ TD (ext_trans _ _ _ _ _ E E2)). intros p [<-|[]].
  destruct K as [->| ->]; [do 4 right; left|do 5 right; left]; exists q; eauto.
Qed.
Lemma tracks_tidy ts : forall i s s', tidy s -> output_tracks_from code s i ts = Ok s' -> tidy s'.
Proof.
  induction ts as [|k ts IH]; intros i s s' TD HX; cbn [output_tracks_from] in HX; [injection HX; intros <-; auto|].
  cbv zeta in HX. ob HX. ob HX. apply (IH (S i) s1 s'); [|exact HX].
  eapply history_tidy; [exact TD|right; reflexivity| |apply path_ev|exact HF|exact HF0]. discriminate.
Qed.
Lemma species_tidy s tb buf name s' : path name <> [] -> tidy s -> out_species s tb buf name = Ok s' -> tidy s'.
Proof.
  intros NE TD HX. unfold out_species in HX. destruct (0 <? _)%Z; [|injection HX; intros <-; auto].
  eapply tidy_ext; [exact TD|eapply o_array_ext; [apply TD| |exact HX]|intros ? []].
  replace (path ("Particles/ParticleSource/" ++ name)%string) with (["Particles"; "ParticleSource"] ++ path name) by (symmetry; apply (path_app "Particles/ParticleSource" name)).
  rewrite app_length. destruct (path name); [contradiction|]. cbn. lia.
Qed.
Lemma dir_ext s g t xs ys zs d s' : f_group (om_file s) = GLive -> (2 <= length (path g))%nat -> out_dir garbage fld s g t xs ys zs d = Ok s' ->
  ext s s' none /\ exists n, lookup (f_tree (om_file s')) (path g ++ ["E" ++ to_string d]%string) = Some n.
Proof.
  intros G LG OD. unfold out_dir in OD. cbv zeta in OD. ob OD. ob OD. ob OD.
  assert (PE : forall c, (c = "E" \/ c = "B")%string -> path (g ++ "/" ++ c ++ to_string d)%string = path g ++ [c ++ to_string d]%string).
  { intros c CC. rewrite path_app. f_equal. apply path_one; [apply no_slash_app; [destruct CC as [->| ->]; intros z [<-|[]]; discriminate|apply to_string_spec]|].
    destruct CC as [->| ->]; discriminate. }
  assert (P1 : path (g ++ "/E" ++ to_string d)%string = path g ++ ["E" ++ to_string d]%string) by exact (PE "E"%string (or_introl eq_refl)).
  assert (P2 : path (g ++ "/B" ++ to_string d)%string = path g ++ ["B" ++ to_string d]%string) by exact (PE "B"%string (or_intror eq_refl)). clear PE.
  pose proof (proj2 (o_array_grows _ _ _ _ _ HF1)) as LP.
  assert (X1 : ext s s2 none) by (eapply o_array_ext; [exact G| |exact HF1]; rewrite P1, app_length; cbn; lia).
  assert (X2 : ext s2 s' none) by (eapply o_array_ext; [exact (proj1 X1)| |exact OD]; rewrite P2, app_length; cbn; lia).
  split.
  - eapply ext_weak; [|eapply ext_trans; [exact X1|exact X2]]. unfold none. tauto.
  - eexists. apply X2. rewrite <- P1. exact LP.
Qed.
Lemma snapshot_tidy s s0 s1 s2 s3 g q t xs ys zs : tidy s -> q <> [] -> path g = "Fields" :: q -> o_group code s g = Ok s0 ->
  out_dir garbage fld s0 g t xs ys zs 0 = Ok s1 -> out_dir garbage fld s1 g t xs ys zs 1 = Ok s2 -> out_dir garbage fld s2 g t xs ys zs 2 = Ok s3 -> tidy s3.
Proof.
  intros TD NE PG HF HF0 HF1 HF2. assert (LG : (2 <= length (path g))%nat) by (rewrite PG; destruct q; [contradiction|cbn; lia]).
  assert (E : ext s s0 (eq (path g))).
  { pose proof HF0 as OD. unfold out_dir in OD. cbv zeta in OD. ob OD. ob OD. ob OD.
    eapply (group_then s s0 _ g "E0" _ _ TD); [rewrite PG; discriminate|reflexivity| |exact HF|exact HF5]. rewrite PG. intros L. apply listed_field; [apply TD, L|exact NE]. }
  destruct (dir_ext _ _ _ _ _ _ _ _ (proj1 E) LG HF0) as [E0 [n LP]]. destruct (dir_ext _ _ _ _ _ _ _ _ (proj1 E0) LG HF1) as [E1 _]. destruct (dir_ext _ _ _ _ _ _ _ _ (proj1 E1) LG HF2) as [E2 _].
  apply (tidy_ext s s3 _ TD (ext_trans _ _ _ _ _ E (ext_trans _ _ _ _ _ E0 (ext_trans _ _ _ _ _ E1 E2)))). intros p [<-|[[]|[[]|[]]]].
  do 6 right. left. exists q. split; [exact NE|]. split; [exact PG|]. exists n. apply E2, E1. exact LP.
Qed.
Lemma field_tidy ts xs ys zs : forall i s s', tidy s -> out_field_from code garbage fld s i ts xs ys zs = Ok s' -> tidy s'.
Proof.
  induction ts as [|t ts IH]; intros i s s' TD HX; cbn [out_field_from] in HX; [injection HX; intros <-; auto|].
  cbv zeta in HX. ob HX. ob HX. ob HX. ob HX. apply (IH (S i) s3 s'); [|exact HX].
  eapply snapshot_tidy; [exact TD| |apply path_f|exact HF|exact HF0|exact HF1|exact HF2]. discriminate.
Qed.
Lemma hist_tidy s s0 s1 s2 g q b1 d1 b2 d2 : tidy s -> q <> [] -> path g = "Histograms" :: q -> o_group code s g = Ok s0 ->
  o_array s0 b1 d1 (g ++ "/BinCentres")%string = Ok s1 -> o_array s1 b2 d2 (g ++ "/BinValues")%string = Ok s2 -> tidy s2.
Proof.
  intros TD NE PG HF HF0 HX.
  assert (L3 : forall x, path x <> [] -> (3 <= length (path (g ++ String "/"%char x)%string))%nat).
  { intros x X. replace (path (g ++ String "/"%char x)%string) with (path g ++ path x) by (symmetry; apply path_app). rewrite app_length, PG.
    destruct (path x); [contradiction|]. destruct q; [contradiction|]. cbn. lia. }
  assert (E : ext s s0 (eq (path g))).
  { eapply (group_then s s0 _ g "BinCentres" _ _ TD); [rewrite PG; discriminate|reflexivity| |exact HF|exact HF0]. rewrite PG. intros L. apply listed_hist; [apply TD, L|exact NE]. }
  pose proof (proj2 (o_array_grows _ _ _ _ _ HF0)) as LP.
  pose proof (o_array_ext _ _ _ _ _ (proj1 E) (L3 "BinCentres" ltac:(discriminate)) HF0) as E1.
  pose proof (o_array_ext _ _ _ _ _ (proj1 E1) (L3 "BinValues" ltac:(discriminate)) HX) as E2.
  apply (tidy_ext s s2 _ TD (ext_trans _ _ _ _ _ E (ext_trans _ _ _ _ _ E1 E2))). intros p [<-|[[]|[]]].
  do 7 right. exists q. split; [exact NE|]. split; [exact PG|]. eexists. apply E2.
  replace (path g ++ ["BinCentres"]) with (path (g ++ "/BinCentres")%string) by apply path_app. exact LP.
Qed.
Lemma exec_tidy s o s' : tidy_call o -> tidy s -> exec code garbage fld s o = Ok s' -> tidy s'.
Proof.
  intros TC TD HX. destruct o as [p name|l name|l name|n|l id|l id|l id|a c|ts xs ys zs|h]; cbn [exec tidy_call] in HX, TC; try contradiction.
  - unfold single_particle in HX. ob HX.
    assert (T1 : tidy s0).
    { eapply (once_tidy (om_single s) s "Particles/Single" (@with_single T)); [exact TD| |intros x; split; [reflexivity|repeat split; auto]| |exact HF].
      - intros F. apply absent; [auto|reflexivity|]. intros L. destruct (listed_two _ _ _ L eq_refl) as [[_ X]|[[X _]|[X _]]]; [congruence|discriminate|discriminate].
      - intros x. right. left. auto. }
    destruct (negb (p_tracking p)); [discriminate|]. cbv zeta in HX. ob HX. ob HX.
    eapply history_tidy; [exact T1|left; reflexivity|exact TC|apply (path_app "Particles/Single" name)|exact HF1|exact HX].
  - injection HX; intros <-. exact TD.
  - unfold store_primary in HX. ob HX. ob HX. injection HX; intros <-. exact TD.
  - unfold store_final in HX. ob HX. ob HX. ob HX. injection HX; intros <-. exact TD.
  - injection HX; intros <-. exact TD.
  - unfold output_events in HX. ob HX.
    assert (T1 : tidy s0).
    { destruct a; [|injection HF; intros <-; auto]. unfold output_source in HF. ob HF.
      assert (T0 : tidy s1).
      { eapply (once_tidy (om_source s) s "Particles/ParticleSource" (@with_source T)); [exact TD| |intros x; split; [reflexivity|repeat split; auto]| |exact HF0].
        - intros F. apply absent; [auto|reflexivity|]. intros L. destruct (listed_two _ _ _ L eq_refl) as [[X _]|[[_ X]|[X _]]]; [discriminate|congruence|discriminate].
        - intros x. do 2 right. left. auto. }
      ob HF. ob HF. ob HF. ob HF. ob HF. ob HF. ob HF.
      assert (T2 : tidy s3) by (eapply tidy_ext; [exact T0|eapply o_array_ext; [apply T0| |exact HF2]|intros ? []]; cbn; lia).
      eapply species_tidy; [|eapply species_tidy; [|eapply species_tidy; [|exact T2|exact HF6]|exact HF7]|exact HF]; discriminate. }
    destruct c; [|injection HX; intros <-; exact T1]. unfold output_track in HX. ob HX. eapply tracks_tidy; [|exact HX].
    eapply (once_tidy (om_list s0) s0 "Particles/ParticleTrack" (@with_list T)); [exact T1| |intros x; split; [reflexivity|repeat split; auto]| |exact HF0].
    + intros F. apply absent; [auto|reflexivity|]. intros L. destruct (listed_two _ _ _ L eq_refl) as [[X _]|[[X _]|[_ X]]]; [discriminate|discriminate|congruence].
    + intros x. do 3 right. left. auto.
  - eapply field_tidy; eauto.
  - unfold out_hist in HX. cbv zeta in HX. ob HX. ob HX.
    eapply hist_tidy; [exact TD|exact TC|apply (path_app "Histograms" (hi_name h))|exact HF|exact HF0|exact HX].
Qed.
Lemma exec_all_tidy os : Forall tidy_call os -> forall s s', tidy s -> exec_all code garbage fld s os = Ok s' -> tidy s'.
Proof.
  intros F. induction F as [|o os C F IH]; intros s s' TD HX; cbn [exec_all] in HX; [injection HX; intros <-; auto|]. ob HX. eapply IH; [|exact HX]. eapply exec_tidy; eauto.
Qed.
Lemma new_tidy u s0 : om_new code u = Ok s0 -> tidy s0.
Proof.
  rewrite om_new_inv by exact CI. intros E. injection E; intros <-. split; [reflexivity|]. cbn [om_file f_tree]. unfold fresh_tree. split.
  - intros p L. left. cbn in L. unfold root3.
    repeat match type of L with context[list_eq_dec string_dec ?x ?y] => destruct (list_eq_dec string_dec x y) as [->|]; [cbn; tauto|] end. discriminate.
  - intros p d v L. cbn in L. repeat match type of L with context[list_eq_dec string_dec ?x ?y] => destruct (list_eq_dec string_dec x y) as [->|]; [discriminate|] end. discriminate.
Qed.
End Exec.

(** ** C113 *)

(** For every sequence of calls that succeeds: the stores write through existing pointers only, and unless the handle of the last group
    dangles, the destructor succeeds, i.e. frees every buffer that the tables point to once.  What stays allocated afterwards are the buffers
    of earlier InitSource calls, those overwritten by a second store of the same event, and those of ListProperties. *)
Theorem C113_buffers : forall (T : Type) (NT : Num T) (code : objinfo) (garbage : T) (fld : field T) (u : option (units T)) (s0 s : om T) (os : list (op T)),
  om_new code u = Ok s0 -> exec_all code garbage fld s0 os = Ok s ->
  exists b, b_exec_all bufs_new os = Ok b /\
    (f_group (om_file s) = GFreed -> om_delete (om_file s) b = UB DoubleFree) /\
    (f_group (om_file s) <> GFreed -> exists h, om_delete (om_file s) b = Ok h /\ NoDup h /\ incl h (bf_heap b) /\ length h + pointed os = allocated os).
Proof.
  intros T NT code garbage fld u s0 s os N X. destruct (exec_all_shape code garbage fld os _ _ _ X (om_new_shape code u s0 N)) as (b & R & _).
  exists b. split; [exact R|]. unfold om_delete, file_delete. destruct (delete_buffers os b R) as (h & D & P & L).
  assert (Y : exists h', free_slots (bf_prim b) (bf_el b) (bf_po b) (bf_ph b) (bf_heap b) = Ok h' /\ NoDup h' /\ incl h' (bf_heap b) /\ length h' + pointed os = allocated os).
  { exists h. split; [exact D|]. destruct (inv_run os b R) as (_ & ND & _). apply (Permutation_NoDup P) in ND. split; [eapply nodup_app_r; eauto|]. split; [|exact L].
    intros a A. apply (Permutation_in _ (Permutation_sym P)). apply in_app_iff. auto. }
  destruct (f_group (om_file s)); split; intros G; try congruence; try discriminate; try reflexivity; exact Y.
Qed.
Print Assumptions C113_buffers.

(** With the return codes under which anything is written at all, the handle never dangles as long as the list calls are not used and no
    particle or histogram has a name that is empty or consists of slashes. *)
Theorem C113_closes : forall (T : Type) (NT : Num T) (code : objinfo) (garbage : T) (fld : field T) (u : option (units T)) (s0 s : om T) (os : list (op T)),
  objinfo_inverted code -> Forall tidy_call os -> om_new code u = Ok s0 -> exec_all code garbage fld s0 os = Ok s ->
  exists b h, b_exec_all bufs_new os = Ok b /\ om_delete (om_file s) b = Ok h /\ length h + pointed os = allocated os.
Proof.
  intros T NT code garbage fld u s0 s os CI TC N X. destruct (C113_buffers T NT code garbage fld u s0 s os N X) as (b & R & _ & D).
  destruct (exec_all_tidy code garbage fld CI os TC _ _ (new_tidy code CI u s0 N) X) as (G & _). destruct D as (h & D & _ & _ & L); [congruence|].
  exists b, h. auto.
Qed.
Print Assumptions C113_closes.

(** With the documented return codes (nothing is written) it never dangles. *)
Theorem C113_documented : forall (T : Type) (NT : Num T) (code : objinfo) (garbage : T) (fld : field T) (u : option (units T)) (s0 s : om T) (os : list (op T)),
  objinfo_documented code -> om_new code u = Ok s0 -> exec_all code garbage fld s0 os = Ok s ->
  exists b h, b_exec_all bufs_new os = Ok b /\ om_delete (om_file s) b = Ok h /\ length h + pointed os = allocated os.
Proof.
  intros T NT code garbage fld u s0 s os CD N X. destruct (C113_buffers T NT code garbage fld u s0 s os N X) as (b & R & _ & D).
  destruct (om_new_doc code u CD) as (s0' & N' & U). assert (s0' = s0) by congruence. subst s0'.
  pose proof (exec_all_doc code garbage fld os CD s0 s U X) as U'. unfold untouched in U'.
  destruct D as (h & D & _ & _ & L); [rewrite U'; discriminate|]. exists b, h. auto.
Qed.
Print Assumptions C113_documented.

(** *** The main program *)
Section Main.
Context {T : Type} `{NT : Num T}.

Lemma allocated_app (a b : list (op T)) : allocated (a ++ b) = allocated a + allocated b.
Proof. unfold allocated. rewrite map_app, list_sum_app. reflexivity. Qed.
Definition harmless (o : op T) : Prop := allocated1 o = 0 /\ is_init o = false.
Lemma harmless_list (os : list (op T)) : Forall harmless os -> allocated os = 0 /\ existsb is_init os = false /\ primaries os = [] /\ finals os = [].
Proof.
  induction 1 as [|o os [A B] F (I1 & I2 & I3 & I4)]; [repeat split|]. change (allocated (o :: os)) with (allocated1 o + allocated os). rewrite A, I1.
  cbn [existsb]. rewrite B, I2. split; [reflexivity|]. split; [reflexivity|]. unfold primaries, finals in *. cbn [flat_map]. rewrite I3, I4. destruct o; try discriminate; split; reflexivity.
Qed.
Lemma since_split (a b : list (op T)) n : existsb is_init b = false -> since_init (a ++ OInit n :: b) = b.
Proof.
  intros B. induction a as [|o a IH]; cbn [app since_init].
  - rewrite B. reflexivity.
  - rewrite existsb_app. cbn [existsb is_init]. rewrite Bool.orb_true_r. exact IH.
Qed.
Lemma calls_off tracking : forall evs j, Forall harmless (calls_of (T := T) false tracking j evs).
Proof. induction evs as [|[l f] evs IH]; intros j; cbn [calls_of app]; [constructor|]. destruct tracking; cbn [app]; [constructor; [split; reflexivity|]|]; apply IH. Qed.
Lemma calls_on tracking : forall evs j, let os := calls_of (T := T) true tracking j evs in
  allocated os = 4 * length evs /\ existsb is_init os = false /\ primaries os = map Z.of_nat (seq j (length evs)) /\ finals os = map Z.of_nat (seq j (length evs)).
Proof.
  induction evs as [|[l f] evs IH]; intros j; [repeat split|]. cbv zeta in *. destruct (IH (S j)) as (A & B & C & D). cbn [calls_of app length].
  assert (AC : forall (o : op T) os, allocated (o :: os) = allocated1 o + allocated os) by reflexivity.
  unfold primaries, finals in *. cbn [seq map].
  destruct tracking; cbn [app existsb is_init orb flat_map]; rewrite !AC, A, ?B, C, D; cbn [allocated1]; (split; [lia|auto]).
Qed.
Lemma nodup_seq j n : length (nodup Z.eq_dec (map Z.of_nat (seq j n))) = n.
Proof.
  rewrite nodup_fixed_point; [rewrite map_length, seq_length; reflexivity|]. apply FinFun.Injective_map_NoDup; [intros a b; lia|apply seq_NoDup].
Qed.
Notation call_list tracking := (fun r : source_run T => (if sr_output r then [OInit (sr_number r)] else []) ++ sr_calls r ++ [OEvents (sr_output r) tracking]).
Lemma off_harmless tracking : forall ss evss, (forall o src, In (o, src) ss -> o = false) ->
  Forall harmless (flat_map (call_list tracking) (runs_of (T := T) tracking ss evss)).
Proof.
  induction ss as [|[o src] ss IH]; intros [|evs evss] F; cbn [runs_of flat_map]; try constructor.
  assert (o = false) by (eapply F; left; reflexivity). subst o. cbn [sr_output sr_calls app].
  apply Forall_app. split; [apply Forall_app; split; [apply calls_off|constructor; [split; reflexivity|constructor]]|]. apply IH. intros o' src' I. apply (F o' src'). right. exact I.
Qed.
Lemma runs_split tracking : forall ss evss, (exists o src, In (o, src) ss /\ o = true) ->
  length evss = length ss ->
  exists ss1 src evs ss2 e1 e2, ss = ss1 ++ (true, src) :: ss2 /\ (forall o x, In (o, x) ss1 -> o = false) /\ evss = e1 ++ evs :: e2 /\
    runs_of (T := T) tracking ss evss = runs_of tracking ss1 e1 ++ mkSR true (s_nPart src) (calls_of true tracking 0 evs) :: runs_of tracking ss2 e2 /\ length e1 = length ss1 /\ length e2 = length ss2.
Proof.
  induction ss as [|[o src] ss IH]; intros [|evs evss] (o' & x & I & ->) L; try discriminate; [destruct I|].
  destruct o.
  - exists [], src, evs, ss, [], evss. cbn in L. repeat split; auto; try lia. intros o x' [].
  - destruct I as [I|I]; [discriminate|]. destruct (IH evss (ex_intro _ true (ex_intro _ x (conj I eq_refl))) ltac:(cbn in L; lia)) as (ss1 & s & e & ss2 & e1 & e2 & A & B & C & D & F & G).
    exists ((false, src) :: ss1), s, e, ss2, (evs :: e1), e2. rewrite A, C in *. repeat split; auto; try (cbn; lia).
    + intros o y [Y|Y]; [congruence|eauto].
    + cbn [app runs_of]. rewrite D. reflexivity.
Qed.
Lemma sources_length (E : Engine T) fuel w tEnd : forall ss g hs evss g' hs', sources_of E fuel w tEnd ss g hs evss g' hs' -> length evss = length ss.
Proof. induction 1; cbn; auto. Qed.
Lemma main_balance (code : objinfo) garbage fld tracking ss evss hs (o0 o : om T) : length evss = length ss ->
  exec_all code garbage fld o0 (main_calls tracking (runs_of tracking ss evss) hs) = Ok o ->
  pointed (main_calls tracking (runs_of tracking ss evss) hs) = allocated (main_calls tracking (runs_of tracking ss evss) hs) \/
  allocated (main_calls tracking (runs_of tracking ss evss) hs) = 0.
Proof.
  intros L X. assert (HH : Forall harmless (map (@OHist T) hs)) by (apply Forall_forall; intros x I; apply in_map_iff in I; destruct I as (h & <- & _); split; reflexivity).
  destruct (existsb fst ss) eqn:EX.
  - left. apply existsb_exists in EX. destruct EX as ([o' x] & I & O). cbn in O. subst o'.
    destruct (runs_split tracking ss evss) as (ss1 & src & evs & ss2 & e1 & e2 & A & B & C & D & F & G); [eauto|exact L|].
    assert (B2 : forall o' y, In (o', y) ss2 -> o' = false).
    { intros o' y I2. destruct o'; [exfalso|reflexivity].
      destruct (runs_split tracking ss2 e2) as (t1 & src2 & evs2 & t2 & f1 & f2 & _ & _ & _ & D2 & _ & _); [eauto|auto|].
      rewrite D, D2 in X. exact (C58_program T NT code garbage fld o0 o tracking _ _ _ _ _ _ _ _ X). }
    rewrite D. unfold main_calls. rewrite flat_map_app. cbn [flat_map sr_output sr_number sr_calls]. rewrite <- !app_assoc. cbn [app].
    destruct (harmless_list _ (off_harmless tracking ss1 e1 B)) as (A1 & A2 & A3 & A4).
    destruct (harmless_list _ (off_harmless tracking ss2 e2 B2)) as (C1 & C2 & C3 & C4).
    destruct (harmless_list _ HH) as (H1 & H2 & H3 & H4). destruct (calls_on tracking evs 0) as (K1 & K2 & K3 & K4).
    set (pre := flat_map _ (runs_of tracking ss1 e1)) in *. set (post := flat_map _ (runs_of tracking ss2 e2)) in *. set (cs := calls_of true tracking 0 evs) in *.
    assert (NI : existsb is_init (cs ++ OEvents true tracking :: post ++ map OHist hs) = false).
    { rewrite existsb_app. cbn [existsb is_init orb]. rewrite existsb_app, K2, C2, H2. reflexivity. }
    unfold pointed. rewrite since_split by exact NI.
    assert (P : primaries (cs ++ OEvents true tracking :: post ++ map OHist hs) = map Z.of_nat (seq 0 (length evs))).
    { unfold primaries in *. rewrite flat_map_app. cbn [flat_map app]. rewrite flat_map_app, K3, C3, H3, !app_nil_r. reflexivity. }
    assert (Q : finals (cs ++ OEvents true tracking :: post ++ map OHist hs) = map Z.of_nat (seq 0 (length evs))).
    { unfold finals in *. rewrite flat_map_app. cbn [flat_map app]. rewrite flat_map_app, K4, C4, H4, !app_nil_r. reflexivity. }
    rewrite P, Q, !nodup_seq, allocated_app. change (OInit (s_nPart src) :: cs ++ OEvents true tracking :: post ++ map OHist hs) with
      ([OInit (s_nPart src)] ++ cs ++ [OEvents true tracking] ++ post ++ map OHist hs).
    rewrite !allocated_app, A1, C1, H1, K1. cbn. lia.
  - right. unfold main_calls. rewrite allocated_app. destruct (harmless_list _ HH) as (-> & _).
    destruct (harmless_list _ (off_harmless tracking ss evss ltac:(intros o' x I; destruct o'; [|reflexivity]; rewrite <- EX; symmetry; apply existsb_exists; exists (true, x); auto))) as (-> & _). reflexivity.
Qed.
End Main.

Local Notation tracking_of pa := (FileParser.g_tracking (FileParser.in_general pa)).
(** A run of the main program that completes its output also deletes its output manager without error, and nothing of the event buffers is
    left; the histogram names must not be empty or consist of slashes. *)
Theorem C113_main : forall (T : Type) (NT : Num T) (E : Engine T) load_em load_bw counters (code : objinfo) (garbage : T) fuel fld pa g f,
  objinfo_inverted code -> (forall h, In h (FileParser.in_histograms pa) -> path (FileParser.h_name h) <> []) ->
  simulation E load_em load_bw counters code garbage fuel pa g = Ok f ->
  exists o0 os o b, om_new code None = Ok o0 /\ exec_all code garbage fld o0 os = Ok o /\ f = om_file o /\
    (exists ss evss hs, os = main_calls (tracking_of pa) (runs_of (tracking_of pa) ss evss) hs) /\
    b_exec_all bufs_new os = Ok b /\ om_delete f b = Ok [].
Proof.
  intros T NT E load_em load_bw counters code garbage fuel fld pa g f CI NH X.
  apply (C91_run_iff E load_em load_bw counters code garbage fuel fld) in X. destruct X as (w & ss & g1 & o0 & evss & g2 & hs & o & W & MS & O0 & S & X & ->).
  set (os := main_calls (tracking_of pa) (runs_of (tracking_of pa) ss evss) hs) in *.
  assert (TC : Forall (tidy_call) os).
  { unfold os, main_calls. apply Forall_app. split.
    - apply Forall_forall. intros c I. apply in_flat_map in I. destruct I as (r & R & I).
      assert (FR : Forall (tidy_call) (sr_calls r)).
      { clear -R. revert evss R. generalize (tracking_of pa). intros tr. induction ss as [|[o src] ss IH]; intros [|evs evss] R; cbn [runs_of] in R; try contradiction.
        destruct R as [<-|R]; [|eauto]. cbn [sr_calls]. clear IH. generalize 0. induction evs as [|[l fi] evs IHe]; intros j; cbn [calls_of]; [constructor|].
        destruct o, tr; cbn [app]; repeat (constructor; [exact I|]); apply IHe. }
      rewrite !in_app_iff in I. destruct I as [I|[I|I]].
      + destruct (sr_output r); [destruct I as [<-|[]]; exact I|destruct I].
      + rewrite Forall_forall in FR. auto.
      + destruct I as [<-|[]]. exact Logic.I.
    - apply Forall_forall. intros c I. apply in_map_iff in I. destruct I as (h & <- & I). cbn [tidy_call].
      pose proof (kept_names _ _ (sources_kept E fuel w _ _ _ _ _ _ _ S)) as KN. rewrite make_histograms_names in KN.
      assert (I2 : In (hi_name h) (map (@FileParser.h_name T) (FileParser.in_histograms pa))) by (rewrite <- KN; apply in_map; exact I).
      apply in_map_iff in I2. destruct I2 as (q & <- & Q). apply NH. exact Q. }
  destruct (C113_closes T NT code garbage fld None o0 o os CI TC O0 X) as (b & h & R & D & L).
  exists o0, os, o, b. split; [exact O0|]. split; [exact X|]. split; [reflexivity|]. split; [unfold os; eauto|]. split; [exact R|].
  destruct h as [|a h]; [exact D|exfalso]. cbn in L.
  destruct (main_balance code garbage fld (tracking_of pa) ss evss hs o0 o (sources_length _ _ _ _ _ _ _ _ _ _ S) X) as [B|B]; fold os in B; lia.
Qed.
Print Assumptions C113_main.

(** The handle can dangle: writing properties of one list under two names succeeds, both data sets are in the file, and then the destructor
    (or the next call that adds a group) frees the handle a second time. *)
Section Dangling.
Context {T : Type} `{NT : Num T}.
Variable code : objinfo.
Hypothesis CI : objinfo_inverted code.
Lemma o_group_again (s : om T) name : f_group (om_file s) = GLive -> exists_ (f_tree (om_file s)) (path name) = true ->
  o_group code s name = Ok (with_file s (mkFile (f_tree (om_file s)) GFreed)).
Proof.
  destruct CI as [CT CF]. intros G E. unfold o_group, add_group. rewrite G. cbn [bind]. rewrite E. destruct (Z.eqb_spec (code true) 0); [contradiction|]. reflexivity.
Qed.
Lemma o_group_freed (s : om T) name : f_group (om_file s) = GFreed -> o_group code s name = UB DoubleFree.
Proof. intros G. unfold o_group, add_group. rewrite G. reflexivity. Qed.
Variable u : option (units T).
Definition st (t : tree T) (g : gptr) (b : bool) : om T := mkOM (mkFile t g) u false b false [] (mkTab [] []) (mkTab [] []) (mkTab [] []) [].
Lemma st_new t b name : exists_ t (path name) = false -> is_group t (removelast (path name)) = true -> o_group code (st t GLive b) name = Ok (st ((path name, Grp) :: t) GLive b).
Proof. intros A B. rewrite o_group_new; [reflexivity|exact CI|discriminate|exact A|exact B]. Qed.
Lemma st_again t b name : exists_ t (path name) = true -> o_group code (st t GLive b) name = Ok (st t GFreed b).
Proof. intros A. rewrite o_group_again; [reflexivity|reflexivity|exact A]. Qed.
Lemma st_array t g b buf d name : exists_ t (path name) = false -> is_group t (removelast (path name)) = true -> (Z.of_nat (length buf) <? zprod d)%Z = false ->
  o_array (st t g b) buf d name = Ok (st ((path name, Dat d (firstn (Z.to_nat (zprod d)) buf)) :: t) g b).
Proof. intros A B C. unfold o_array, add_array, create. cbn [st om_file f_tree f_group]. rewrite A, B. cbn [bind]. rewrite C. reflexivity. Qed.
Lemma prop_rows_length : forall (ps : list (particle T)) i, length (prop_rows i ps) = (5 * length ps)%nat.
Proof. induction ps as [|p ps IH]; intros i; [reflexivity|]. cbn [prop_rows]. rewrite app_length, IH. cbn. lia. Qed.
End Dangling.

Theorem C113_always_deletable_refuted : forall (T : Type) (NT : Num T) (code : objinfo) (garbage : T) (fld : field T) (u : option (units T))
    (l : plist (particle T)) (x y : string),
  objinfo_inverted code -> no_slash (pl_name l) -> pl_name l <> "" -> no_slash x -> x <> "" -> no_slash y -> y <> "" -> x <> y ->
  exists s0 s b, om_new code u = Ok s0 /\ exec_all code garbage fld s0 [OListProps l x; OListProps l y] = Ok s /\
    (forall z, z = x \/ z = y -> exists n, lookup (f_tree (om_file s)) ["Particles"; "ParticleList"; pl_name l; z] = Some n) /\
    b_exec_all (T := T) bufs_new [OListProps l x; OListProps l y] = Ok b /\ om_delete (om_file s) b = UB DoubleFree /\
    (forall l' z, exec code garbage fld s (OListProps l' z) = UB DoubleFree) /\ (forall h, exec code garbage fld s (OHist h) = UB DoubleFree).
Proof.
  intros T NT code garbage fld u l x y CI NL NE NX XE NY YE XY.
  assert (PL : path ("Particles/ParticleList/" ++ pl_name l)%string = ["Particles"; "ParticleList"; pl_name l]).
  { transitivity (path "Particles/ParticleList" ++ path (pl_name l)); [apply (path_app "Particles/ParticleList")|]. rewrite (path_one _ NL NE). reflexivity. }
  assert (PZ : forall z, no_slash z -> z <> "" -> path (("Particles/ParticleList/" ++ pl_name l) ++ "/" ++ z)%string = ["Particles"; "ParticleList"; pl_name l; z]).
  { intros z NZ ZE. rewrite path_app, PL, (path_one z NZ ZE). reflexivity. }
  pose proof (PZ x NX XE) as PX. pose proof (PZ y NY YE) as PY. clear PZ.
  set (t1 := (["Particles"; "ParticleList"], Grp) :: @fresh_tree T).
  set (t2 := (["Particles"; "ParticleList"; pl_name l], Grp) :: t1).
  set (buf := prop_rows 0 (pl_items l)). set (d := [pl_n l; 5%Z]).
  set (dat := Dat d (firstn (Z.to_nat (zprod d)) buf)).
  set (t3 := (["Particles"; "ParticleList"; pl_name l; x], dat) :: t2). set (t4 := (["Particles"; "ParticleList"; pl_name l; y], dat) :: t3).
  assert (BL : (Z.of_nat (length buf) <? zprod d)%Z = false).
  { apply Z.ltb_ge. unfold buf, d. rewrite prop_rows_length. unfold pl_n. cbn [zprod]. lia. }
  assert (K2 : forall q, lookup t2 q = if list_eq_dec string_dec q ["Particles"; "ParticleList"; pl_name l] then Some Grp else lookup t1 q) by (intros; apply lookup_cons).
  assert (K3 : forall q, lookup t3 q = if list_eq_dec string_dec q ["Particles"; "ParticleList"; pl_name l; x] then Some dat else lookup t2 q) by (intros; apply lookup_cons).
  assert (K4 : forall q, lookup t4 q = if list_eq_dec string_dec q ["Particles"; "ParticleList"; pl_name l; y] then Some dat else lookup t3 q) by (intros; apply lookup_cons).
  assert (L1 : forall a r, lookup t1 ("Particles" :: "ParticleList" :: a :: r) = None).
  { intros a r. unfold t1, fresh_tree. rewrite !lookup_cons. repeat (destruct (list_eq_dec _ _ _) as [Q|]; [discriminate Q|]). reflexivity. }
  assert (G2 : lookup t2 ["Particles"; "ParticleList"; pl_name l] = Some Grp).
  { rewrite K2. destruct (list_eq_dec string_dec _ _) as [_|Q]; [reflexivity|contradiction]. }
  assert (G3 : lookup t3 ["Particles"; "ParticleList"; pl_name l] = Some Grp).
  { rewrite K3. destruct (list_eq_dec string_dec _ _) as [Q|_]; [discriminate Q|exact G2]. }
  assert (X2 : lookup t2 ["Particles"; "ParticleList"; pl_name l; x] = None).
  { rewrite K2. destruct (list_eq_dec string_dec _ _) as [Q|_]; [discriminate Q|apply L1]. }
  assert (Y3 : lookup t3 ["Particles"; "ParticleList"; pl_name l; y] = None).
  { rewrite K3. destruct (list_eq_dec string_dec _ _) as [Q|_]; [injection Q; intros Q'; congruence|]. rewrite K2. destruct (list_eq_dec string_dec _ _) as [Q|_]; [discriminate Q|apply L1]. }
  exists (st u fresh_tree GLive false), (st u t4 GFreed true), (mkBufs [] [] [] [] [1; 0] 2).
  split; [rewrite om_new_inv by exact CI; reflexivity|]. split.
  { assert (E1 : list_properties code (st u fresh_tree GLive false) l x = Ok (st u t3 GLive true)).
    { unfold list_properties. change (om_list (st u fresh_tree GLive false)) with false. cbv iota. rewrite (st_new code CI u) by reflexivity. cbn [bind].
      change (with_list (st u ((path "Particles/ParticleList", Grp) :: fresh_tree) GLive false)) with (st u t1 GLive true). cbv zeta.
      rewrite (st_new code CI u); rewrite ?PL; [|unfold exists_; rewrite L1; reflexivity|reflexivity]. fold t2. cbn [bind]. rewrite st_array; rewrite ?PX.
      - reflexivity.
      - unfold exists_. rewrite X2. reflexivity.
      - cbn [removelast]. unfold is_group. rewrite G2. reflexivity.
      - exact BL. }
    assert (E2 : list_properties code (st u t3 GLive true) l y = Ok (st u t4 GFreed true)).
    { unfold list_properties. change (om_list (st u t3 GLive true)) with true. cbv iota. cbn [bind]. cbv zeta.
      rewrite (st_again code CI u); rewrite ?PL; [|unfold exists_; rewrite G3; reflexivity]. cbn [bind]. rewrite st_array; rewrite ?PY.
      - reflexivity.
      - unfold exists_. rewrite Y3. reflexivity.
      - cbn [removelast]. unfold is_group. rewrite G3. reflexivity.
      - exact BL. }
    cbn [exec_all exec]. rewrite E1. cbn [bind]. rewrite E2. reflexivity. }
  split.
  { intros z [->| ->]; change (f_tree (om_file (st u t4 GFreed true))) with t4; rewrite K4; destruct (list_eq_dec string_dec _ _) as [Q|Q]; eauto; [|contradiction].
    rewrite K3. destruct (list_eq_dec string_dec _ _) as [_|Q2]; [eauto|contradiction]. }
  split; [reflexivity|]. split; [reflexivity|]. split.
  - intros l' z. cbn [exec]. unfold list_properties. change (om_list (st u t4 GFreed true)) with true. cbv iota. cbn [bind]. cbv zeta. rewrite o_group_freed by reflexivity. reflexivity.
  - intros h. cbn [exec]. unfold out_hist. cbv zeta. rewrite o_group_freed by reflexivity. reflexivity.
Qed.
Print Assumptions C113_always_deletable_refuted.

(** two events: eight buffers, all freed; storing a primary twice loses one, a second InitSource loses the eight *)
Example C113_case :
  let os := [OInit 2; OPrimary (pl_new "l" 9) 0; OFinal (pl_new "l" 9) 0; OPrimary (pl_new "l" 9) 1; OFinal (pl_new "l" 9) 1] : list (op SpecFloat.spec_float) in
  (exists b, b_exec_all bufs_new os = Ok b /\ om_delete (mkFile [] GLive : file SpecFloat.spec_float) b = Ok [] /\ length (bf_heap b) = 8) /\
  (allocated os = 8 /\ pointed os = 8) /\
  (exists b h, b_exec_all bufs_new (os ++ [OPrimary (pl_new "l" 9) 0]) = Ok b /\ om_delete (mkFile [] GLive : file SpecFloat.spec_float) b = Ok h /\ length h = 1) /\
  (exists b h, b_exec_all bufs_new (os ++ [OInit 3; OFinal (pl_new "l" 9) 2]) = Ok b /\ om_delete (mkFile [] GLive : file SpecFloat.spec_float) b = Ok h /\ length h = 8).
Proof.
  cbv zeta. split; [eexists; split; [vm_compute; reflexivity|split; vm_compute; reflexivity]|]. split; [split; vm_compute; reflexivity|].
  split; (eexists; eexists; split; [vm_compute; reflexivity|split; vm_compute; reflexivity]).
Qed.
(** whole runs: with the name "/" for a second histogram the output is complete, but the file cannot be closed *)
Definition closes (r : res (file SpecFloat.spec_float)) : option (res unit) := match r with Ok f => Some (file_delete f) | _ => None end.
Example C113_run_case :
  closes (c_run (c_text "true" "") ["qedcasc"; "run.ini"]) = Some (Ok tt) /\
  closes (c_run (c_text "false" "[Histogram2]
name = /
particle = Photon
type = energy
") ["qedcasc"; "run.ini"]) = Some (UB DoubleFree).
Proof. split; vm_compute; reflexivity. Qed.
