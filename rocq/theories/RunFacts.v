(** * The run manager: proofs *)
From Coq Require Import String ZArith List Bool Lia Permutation.
From Verif Require Import Num Outcome OutcomeFacts Vec Units MCTools Particle ParticleList Source Fields Pusher Process Sim
  SimFacts RunManager.
Import ListNotations.
Local Open Scope string_scope.
Local Open Scope list_scope.

(** ** Tables *)
Section Tables.
Context {T : Type} `{Num T}.

Definition tb_eqb (a b : table) : bool :=
  match a, b with TInput, TInput | TElectron, TElectron | TPositron, TPositron | TPhoton, TPhoton => true | _, _ => false end.
Lemma tb_eqb_eq a b : tb_eqb a b = true <-> a = b.
Proof. destruct a, b; simpl; split; congruence. Qed.

(** the values pushed into one table *)
Definition values_of (tb : table) (ps : list (push (T := T))) : list T :=
  map snd (filter (fun p => tb_eqb (fst p) tb) ps).
Lemma values_app tb a b : values_of tb (a ++ b) = values_of tb a ++ values_of tb b.
Proof. unfold values_of. now rewrite filter_app, map_app. Qed.

Lemma of_set_same tb (t : tables T) l : of_table tb (set_table tb t l) = l.
Proof. now destruct tb. Qed.
Lemma of_set_other tb tb' (t : tables T) l : tb <> tb' -> of_table tb (set_table tb' t l) = of_table tb t.
Proof. destruct tb, tb'; simpl; congruence. Qed.

Definition shape (n : nat) (t : tables T) : Prop := forall tb, length (of_table tb t) = n.

Lemma length_upd' {A} (l : list A) i a : length (upd l i a) = length l.
Proof. revert i; induction l as [|h l IH]; intros [|i]; simpl; auto. Qed.
Lemma nth_upd_same {A} (l : list A) i a d : (i < length l)%nat -> nth i (upd l i a) d = a.
Proof. revert i; induction l as [|h l IH]; intros [|i] Hi; simpl in *; try lia; auto. apply IH. lia. Qed.
Lemma nth_upd_other {A} (l : list A) i j a d : i <> j -> nth j (upd l i a) d = nth j l d.
Proof. revert i j; induction l as [|h l IH]; intros [|i] [|j] Hi; simpl; auto; try congruence. Qed.

(** the vector of a thread *)
Definition buffer (tb : table) (t : tables T) (tid : nat) : list T := nth tid (of_table tb t) [].

Lemma do_push_ok n tid (t : tables T) p : shape n t -> (tid < n)%nat ->
  exists t', do_push tid t p = Ok t' /\ shape n t' /\
    (forall tb tid', buffer tb t' tid' = buffer tb t tid' ++ (if (tid' =? tid)%nat then values_of tb [p] else [])).
Proof.
  intros Hs Ht. unfold do_push. destruct p as [tb v]. cbn [fst snd].
  assert (L : (tid < length (of_table tb t))%nat) by now rewrite Hs.
  destruct (nth_error (of_table tb t) tid) as [l|] eqn:E; [|apply nth_error_None in E; lia].
  eexists. split; [reflexivity|]. split.
  - intros tb'. destruct (tb_eqb tb' tb) eqn:Q.
    + apply tb_eqb_eq in Q. subst. rewrite of_set_same, length_upd'. apply Hs.
    + rewrite of_set_other; [apply Hs|]. intros ->. destruct tb; discriminate.
  - intros tb' tid'. unfold buffer. destruct (tb_eqb tb tb') eqn:Q.
    + apply tb_eqb_eq in Q. subst tb'. rewrite of_set_same. destruct (tid' =? tid)%nat eqn:Qt.
      * apply Nat.eqb_eq in Qt. subst tid'. rewrite nth_upd_same by assumption.
        rewrite (nth_error_nth _ _ _ E). unfold values_of. cbn [filter fst map snd].
        replace (tb_eqb tb tb) with true by now destruct tb. reflexivity.
      * apply Nat.eqb_neq in Qt. rewrite nth_upd_other by congruence. now rewrite app_nil_r.
    + rewrite of_set_other by (intros ->; destruct tb; discriminate).
      destruct (tid' =? tid)%nat; [|now rewrite app_nil_r].
      unfold values_of. cbn [filter fst]. rewrite Q. now rewrite app_nil_r.
Qed.

Lemma do_pushes_ok n tid : forall ps (t : tables T), shape n t -> (tid < n)%nat ->
  exists t', do_pushes tid t ps = Ok t' /\ shape n t' /\
    (forall tb tid', buffer tb t' tid' = buffer tb t tid' ++ (if (tid' =? tid)%nat then values_of tb ps else [])).
Proof.
  induction ps as [|p ps IH]; intros t Hs Ht; cbn [do_pushes].
  - exists t. repeat split; auto. intros tb tid'. destruct (_ =? _)%nat; now rewrite app_nil_r.
  - destruct (do_push_ok n tid t p Hs Ht) as (t1 & -> & S1 & B1). cbn [bind].
    destruct (IH t1 S1 Ht) as (t2 & E2 & S2 & B2). exists t2. repeat split; auto.
    intros tb tid'. rewrite B2, B1, <- app_assoc. f_equal. destruct (_ =? _)%nat; [|reflexivity].
    change (p :: ps) with ([p] ++ ps). now rewrite values_app.
Qed.

Lemma empty_shape n : shape n (empty_tables (T := T) n).
Proof. intros tb. destruct tb; simpl; apply repeat_length. Qed.
Lemma empty_buffer n tb tid : buffer tb (empty_tables (T := T) n) tid = [].
Proof.
  assert (K : nth tid (repeat (@nil T) n) [] = []).
  { destruct (Nat.lt_ge_cases tid n) as [L|G]; [|apply nth_overflow; now rewrite repeat_length].
    clear. revert tid; induction n as [|n IH]; intros [|tid]; simpl; auto. }
  destruct tb; exact K.
Qed.

(** cutting a concatenation of rows of equal length gives the rows back *)
Lemma cut_rows k : (0 < k)%nat -> forall rows : list (list T), Forall (fun r => length r = k) rows ->
  forall fuel, fuel = length rows -> cut fuel k (concat rows) = rows.
Proof.
  intros Hk rows F. induction F as [|r rows Hr F IH]; intros fuel ->; [reflexivity|].
  cbn [length cut concat].
  assert (E1 : firstn k (r ++ concat rows) = r).
  { rewrite firstn_app, Hr, Nat.sub_diag, firstn_O, app_nil_r. apply firstn_all2. lia. }
  assert (E2 : skipn k (r ++ concat rows) = concat rows).
  { rewrite skipn_app, Hr, Nat.sub_diag. rewrite skipn_all2 by lia. reflexivity. }
  rewrite E1, E2. f_equal. now apply IH.
Qed.
Lemma concat_length_rows k (rows : list (list T)) : Forall (fun r => length r = k) rows ->
  length (concat rows) = (length rows * k)%nat.
Proof. intros F. induction F as [|r rows Hr F IH]; [reflexivity|]. cbn [concat length]. rewrite app_length. lia. Qed.
Lemma to_array_rows k bufs (rows : list (list T)) : (0 < k)%nat -> Forall (fun r => length r = k) rows ->
  concat bufs = concat rows -> to_array k bufs = rows.
Proof.
  intros Hk F E. unfold to_array. rewrite E. apply cut_rows; auto.
  rewrite (concat_length_rows k) by assumption. apply Nat.div_mul. lia.
Qed.

Definition width (tb : table) : nat := match tb with TInput => 6 | _ => 7 end.

(** rows that an event contributes to a table *)
Definition goes_to (tb : table) (p : particle T) : bool :=
  match final_table p with Some tb' => tb_eqb tb' tb | None => false end.
Definition event_rows (tb : table) (e : list (particle T) * list (particle T)) : list (list T) :=
  match tb with
  | TInput => map input_row (fst e)
  | _ => map final_row (filter (goes_to tb) (snd e))
  end.

Lemma final_not_input p : final_table (T := T) p <> Some TInput.
Proof. unfold final_table. repeat destruct (neqb _ _); discriminate. Qed.

Lemma values_map tb tb' (l : list T) : values_of tb (map (pair tb') l) = if tb_eqb tb' tb then l else [].
Proof.
  unfold values_of. induction l as [|x l IH]; cbn [map filter fst]; [now destruct (tb_eqb tb' tb)|].
  destruct (tb_eqb tb' tb); cbn [map snd]; rewrite IH; reflexivity.
Qed.

Lemma flat_map_map {A B C} (f : A -> B) (g : B -> list C) l : flat_map g (map f l) = flat_map (fun x => g (f x)) l.
Proof. induction l; simpl; [reflexivity|]. now rewrite IHl. Qed.
Lemma concat_map_flat {A B} (f : A -> list B) l : concat (map f l) = flat_map f l.
Proof. symmetry. apply flat_map_concat_map. Qed.

Lemma values_input tb ps : values_of tb (input_pushes ps) = match tb with TInput => concat (map input_row ps) | _ => [] end.
Proof.
  unfold input_pushes. rewrite values_map. destruct tb; simpl; auto. symmetry. apply concat_map_flat.
Qed.
Lemma values_final tb ps : values_of tb (final_pushes ps) =
  match tb with TInput => [] | _ => concat (map final_row (filter (goes_to tb) ps)) end.
Proof.
  unfold final_pushes. induction ps as [|p ps IH]; [now destruct tb|].
  cbn [flat_map]. rewrite values_app, IH. clear IH.
  assert (G : goes_to tb p = match final_table p with Some tb' => tb_eqb tb' tb | None => false end) by reflexivity.
  destruct (final_table p) as [tb'|] eqn:E.
  - rewrite values_map. destruct (tb_eqb tb' tb) eqn:Q.
    + apply tb_eqb_eq in Q. subst tb'.
      destruct tb; [now apply final_not_input in E| | |]; cbn [filter]; rewrite G; reflexivity.
    + destruct tb; [reflexivity| | |]; cbn [filter]; rewrite G; reflexivity.
  - destruct tb; [reflexivity| | |]; cbn [filter]; rewrite G; reflexivity.
Qed.
Lemma values_event tb a b : values_of tb (input_pushes a ++ final_pushes b) = concat (event_rows tb (a, b)).
Proof. rewrite values_app, values_input, values_final. destruct tb; cbn [event_rows fst snd]; now rewrite ?app_nil_r. Qed.

Lemma event_rows_width tb e : Forall (fun r => length r = width tb) (event_rows tb e).
Proof. apply Forall_forall. intros r Hr. destruct tb; apply in_map_iff in Hr; destruct Hr as (p & <- & _); reflexivity. Qed.
Lemma rows_width tb es : Forall (fun r => length r = width tb) (flat_map (event_rows tb) es).
Proof.
  apply Forall_forall. intros r Hr. apply in_flat_map in Hr. destruct Hr as (e & _ & Hr).
  pose proof (event_rows_width tb e) as F. rewrite Forall_forall in F. auto.
Qed.
Lemma concat_flat_map {A B} (f : A -> list (list B)) l : concat (flat_map f l) = flat_map (fun x => concat (f x)) l.
Proof. induction l; simpl; [reflexivity|]. now rewrite concat_app, IHl. Qed.

(** ** Threads *)
Section Threads.
Variable events : list (list (particle T) * list (particle T)).

Definition pending (s : threads_state (T := T)) (tid : nat) : list push := nth tid (fst s) [].

Lemma threads_step_facts n tid s r : shape n (snd s) -> length (fst s) = n -> threads_step tid s = Some r ->
  exists s', r = Ok s' /\ shape n (snd s') /\ length (fst s') = n /\
    forall tb t, buffer tb (snd s') t ++ values_of tb (pending s' t) = buffer tb (snd s) t ++ values_of tb (pending s t).
Proof.
  intros Hs Hl E. unfold threads_step in E. destruct (nth_error (fst s) tid) as [[|p rest]|] eqn:En; try discriminate.
  assert (L : (tid < n)%nat) by (rewrite <- Hl; apply nth_error_Some; congruence).
  destruct (do_push_ok n tid (snd s) p Hs L) as (t' & Et & S' & B). rewrite Et in E. inversion E; subst.
  eexists. split; [reflexivity|]. cbn [fst snd]. split; [exact S'|]. split; [now rewrite length_upd'|].
  intros tb t. rewrite B. unfold pending. cbn [fst]. destruct (t =? tid)%nat eqn:Q.
  - apply Nat.eqb_eq in Q. subst t. rewrite nth_upd_same by assumption. rewrite (nth_error_nth _ _ _ En).
    rewrite <- app_assoc. f_equal. change (p :: rest) with ([p] ++ rest). now rewrite values_app.
  - apply Nat.eqb_neq in Q. rewrite nth_upd_other by congruence. now rewrite app_nil_r.
Qed.

Lemma threads_run_facts n : forall sched s r, shape n (snd s) -> length (fst s) = n -> threads_run sched s = Some r ->
  exists s', r = Ok s' /\ shape n (snd s') /\ length (fst s') = n /\
    forall tb t, buffer tb (snd s') t ++ values_of tb (pending s' t) = buffer tb (snd s) t ++ values_of tb (pending s t).
Proof.
  induction sched as [|tid sched IH]; intros s r Hs Hl E; cbn [threads_run] in E.
  - inversion E; subst. exists s. auto.
  - destruct (threads_step tid s) as [x|] eqn:Ex; [|discriminate].
    destruct (threads_step_facts n tid s x Hs Hl Ex) as (s1 & -> & S1 & L1 & B1).
    destruct (IH s1 r S1 L1 E) as (s2 & -> & S2 & L2 & B2). exists s2. repeat split; auto.
    intros tb t. now rewrite B2, B1.
Qed.

Lemma concat_nth {A} (l : list (list A)) : forall (m : list (list A)), length l = length m ->
  (forall t, nth t l [] = nth t m []) -> concat l = concat m.
Proof.
  induction l as [|x l IH]; intros [|y m] Hl Hn; simpl in *; try lia; [reflexivity|].
  pose proof (Hn 0%nat). simpl in H0. subst y. f_equal. apply IH; [lia|]. intros t. apply (Hn (S t)).
Qed.

Definition plan_rows (tb : table) (plan : list (list nat)) : list (list T) :=
  flat_map (fun i => match nth_error events i with Some e => event_rows tb e | None => [] end) (concat plan).

Lemma values_iteration tb i : values_of tb (iteration events i) =
  concat (match nth_error events i with Some e => event_rows tb e | None => [] end).
Proof.
  unfold iteration. destruct (nth_error events i) as [[a b]|]; [apply values_event|reflexivity].
Qed.
Lemma values_iterations tb is : values_of tb (flat_map (iteration events) is) =
  concat (flat_map (fun i => match nth_error events i with Some e => event_rows tb e | None => [] end) is).
Proof.
  induction is as [|i is IH]; [reflexivity|]. cbn [flat_map]. rewrite values_app, values_iteration, IH. now rewrite concat_app.
Qed.

Lemma threads_finished plan sched r s : threads_run sched (threads_start events plan) = Some r ->
  (forall s', r = Ok s' -> threads_done s') -> r = Ok s ->
  forall tb, to_array (width tb) (of_table tb (snd s)) = plan_rows tb plan.
Proof.
  intros E D -> tb.
  destruct (threads_run_facts (length plan) sched (threads_start events plan) (Ok s)) as (s' & Es & S' & L' & B);
    [apply empty_shape|unfold threads_start; cbn [fst]; apply map_length|exact E|].
  inversion Es; subst s'. specialize (D s eq_refl).
  apply to_array_rows; [destruct tb; simpl; lia| |].
  - unfold plan_rows. apply Forall_forall. intros r Hr. apply in_flat_map in Hr. destruct Hr as (i & _ & Hr).
    destruct (nth_error events i) as [e|]; [|contradiction].
    pose proof (event_rows_width tb e) as F. rewrite Forall_forall in F. auto.
  - assert (K : concat (of_table tb (snd s)) =
               concat (map (fun is => values_of tb (flat_map (iteration events) is)) plan)).
    { apply concat_nth; [rewrite map_length; apply S'|]. intros t. specialize (B tb t).
      unfold pending in B. assert (P0 : nth t (fst s) [] = []).
      { destruct (Nat.lt_ge_cases t (length (fst s))) as [L|G]; [|now apply nth_overflow].
        unfold threads_done in D. rewrite Forall_forall in D. apply D. now apply nth_In. }
      rewrite P0 in B. unfold values_of at 1 in B. simpl in B. rewrite app_nil_r in B. unfold buffer in B at 1. rewrite B.
      unfold threads_start. cbn [fst snd]. rewrite empty_buffer. cbn [app].
      destruct (Nat.lt_ge_cases t (length plan)) as [L|G].
      - rewrite (nth_indep _ [] (flat_map (iteration events) [])) by now rewrite map_length.
        rewrite map_nth. rewrite (nth_indep (map _ plan) [] (values_of tb (flat_map (iteration events) []))) by now rewrite map_length.
        now rewrite (map_nth (fun is => values_of tb (flat_map (iteration events) is))).
      - rewrite !nth_overflow by (now rewrite map_length). reflexivity. }
    rewrite K. unfold plan_rows. clear. induction plan as [|is plan IH]; [reflexivity|].
    cbn [map concat]. rewrite IH, values_iterations. rewrite flat_map_app, concat_app. reflexivity.
Qed.

(** progress: as long as a thread has work, it can execute its next step *)
Lemma threads_progress (s : threads_state (T := T)) : ~ threads_done s -> exists tid r, threads_step tid s = Some r.
Proof.
  intros N. unfold threads_done in N.
  assert (K : exists tid p rest, nth_error (fst s) tid = Some (p :: rest)).
  { revert N. generalize (fst s). intros l. induction l as [|q l IH]; intros N; [exfalso; apply N; constructor|].
    destruct q as [|p rest].
    - destruct IH as (tid & p & rest & K); [|exists (S tid); eauto].
      intros F. apply N. constructor; auto.
    - exists 0%nat, p, rest. reflexivity. }
  destruct K as (tid & p & rest & K). exists tid. unfold threads_step. rewrite K. eauto.
Qed.
End Threads.

Lemma seq_rows (events : list (list (particle T) * list (particle T))) tb :
  flat_map (fun i => match nth_error events i with Some e => event_rows tb e | None => [] end) (seq 0 (length events))
  = flat_map (event_rows tb) events.
Proof.
  assert (G : forall pre, flat_map (fun i => match nth_error (pre ++ events) i with Some e => event_rows tb e | None => [] end)
     (seq (length pre) (length events)) = flat_map (event_rows tb) events); [|exact (G [])].
  induction events as [|e es IH]; intros pre; [reflexivity|]. cbn [length seq flat_map].
  rewrite nth_error_app2, Nat.sub_diag by lia. cbn [nth_error]. f_equal.
  specialize (IH (pre ++ [e])). rewrite app_length in IH. cbn [length] in IH. rewrite Nat.add_1_r in IH.
  rewrite <- app_assoc in IH. exact IH.
Qed.
End Tables.

(** ** No event loop frees anything twice *)
Section Quiet.
Context {T : Type} `{Num T}.
Variable E : Engine T.
Notation DF := (UB DoubleFree).

Lemma bind_nd {A B} (x : res A) (f : A -> res B) : x <> DF -> (forall a, f a <> DF) -> bind x f <> DF.
Proof. destruct x; cbn; intros; try discriminate; auto. intros K. apply H0. now inversion K. Qed.
Lemma get_nd {A} (l : list A) i : get l i <> DF.
Proof. unfold get. destruct (_ || _)%bool; [discriminate|]. destruct (nth_error _ _); discriminate. Qed.
Lemma pl_get_nd {A} (l : plist A) i : pl_get l i <> DF.
Proof. unfold pl_get. destruct (_ || _)%bool; [discriminate|]. destruct (nth_error _ _); discriminate. Qed.
Lemma first_above_nd n sp (q : T) : forall i, Numerics.first_above n sp q i <> DF.
Proof. induction n; intros i; cbn; [discriminate|]. apply bind_nd; [apply get_nd|]. intros a. destruct (nltb _ _); [discriminate|auto]. Qed.
Lemma last_below_nd n sp (q : T) : forall i low, Numerics.last_below n sp q i low <> DF.
Proof. induction n; intros i low; cbn; [discriminate|]. apply bind_nd; [apply get_nd|]. intros a. destruct (nltb _ _); [auto|discriminate]. Qed.
Lemma interpolate1d_nd sp sd n (q : T) : Numerics.interpolate1d sp sd n q <> DF.
Proof.
  unfold Numerics.interpolate1d. cbv zeta. repeat first [apply bind_nd; [first [apply get_nd | apply first_above_nd]|intros ?] | discriminate
    | match goal with |- context [if ?b then _ else _] => destruct b end].
Qed.
Lemma closest_points_nd sp n (q : T) : Numerics.closest_points sp n q <> DF.
Proof.
  unfold Numerics.closest_points. repeat first [apply bind_nd; [first [apply get_nd | apply last_below_nd]|intros ?] | discriminate
    | match goal with |- context [if ?b then _ else _] => destruct b end].
Qed.
Lemma calculate_chi_nd tab (eta : T) g : calculate_chi E tab eta g <> DF.
Proof.
  unfold calculate_chi. destruct (rand_double E n0 n1 g). cbv zeta.
  repeat first [apply bind_nd; [first [apply get_nd | apply closest_points_nd | apply interpolate1d_nd]|intros ?] | discriminate].
Qed.
Lemma calculate_split_nd tab (eta : T) g : calculate_split E tab eta g <> DF.
Proof.
  unfold calculate_split. destruct (rand_double E n0 n1 g). cbv zeta.
  repeat first [apply bind_nd; [first [apply get_nd | apply closest_points_nd | apply interpolate1d_nd]|intros ?] | discriminate].
Qed.
Lemma interact_nd pr p l g : interact E pr p l g <> DF.
Proof.
  destruct pr; cbn; unfold stochastic_interact, continuous_interact, breit_wheeler_interact; cbv zeta;
  repeat first [discriminate
    | apply interpolate1d_nd | apply calculate_chi_nd | apply calculate_split_nd | apply get_nd
    | apply bind_nd; [|intros ?]
    | match goal with |- context [match ?b with _ => _ end] => destruct b end].
Qed.
Lemma call_processes_nd k prs : forall l g, call_processes E k prs l g <> DF.
Proof.
  induction prs as [|pr t IH]; intros l g; cbn; [discriminate|]. apply bind_nd; [|intros; apply IH].
  unfold call_process. apply bind_nd; [apply pl_get_nd|].
  intros p. apply bind_nd; [apply interact_nd|]. intros [[p' l'] g']. discriminate.
Qed.
Lemma pass_from_nd w fuel : forall k l g, pass_from E w fuel k l g <> DF.
Proof.
  induction fuel as [|f IH]; intros k l g; cbn; destruct (Z.ltb k (pl_n l)); try discriminate.
  apply bind_nd; [|intros; apply IH]. unfold visit. apply bind_nd; [apply pl_get_nd|]. intros p. apply call_processes_nd.
Qed.
Lemma time_loop_nd {S} w htimes (fill : nat -> T -> list (particle T) -> S -> res S) fuel tEnd :
  (forall i t ps h, fill i t ps h <> DF) -> forall s, time_loop E w htimes fill fuel tEnd s <> DF.
Proof.
  intros Hf. induction fuel as [|f IH]; intros s; cbn; destruct (nltb _ _); try discriminate.
  apply bind_nd; [|intros; apply IH]. unfold time_step. apply bind_nd.
  - unfold hist_check. destruct (nth_error _ _); [|discriminate]. destruct (nleb _ _); [|discriminate].
    apply bind_nd; [apply Hf|]. discriminate.
  - intros s1. apply bind_nd; [apply pass_from_nd|]. discriminate.
Qed.
Lemma generate_list_nd s g : generate_list E s g <> DF.
Proof.
  unfold generate_list. cbv zeta. unfold make_primary. destruct (_ =? _)%Z; [discriminate|].
  repeat first [apply bind_nd; [apply get_nd|intros ?] | discriminate
    | apply bind_nd; [|intros [? ?]]
    | match goal with |- context [if ?b then _ else _] => destruct b end].
Qed.
Lemma do_pushes_nd tid : forall ps (t : tables T), do_pushes tid t ps <> DF.
Proof.
  induction ps as [|p ps IH]; intros t; cbn [do_pushes]; [discriminate|]. apply bind_nd; [|intros; apply IH].
  unfold do_push. destruct (nth_error _ _); discriminate.
Qed.
Lemma serial_events_nd fuel n w tEnd : forall s t g, serial_events E fuel n w tEnd s t g <> DF.
Proof.
  induction n as [|n IH]; intros s t g; cbn [serial_events]; [discriminate|].
  apply bind_nd; [apply generate_list_nd|]. intros [[l s1] g1].
  apply bind_nd; [apply do_pushes_nd|]. intros t1.
  apply bind_nd; [apply time_loop_nd; discriminate|]. intros st.
  apply bind_nd; [apply do_pushes_nd|]. intros t2. apply IH.
Qed.
End Quiet.
