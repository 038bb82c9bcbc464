(** * Properties C22-C24: primary particle source *)
From Coq Require Import String ZArith Reals Lra Lia List Bool.
From Verif Require Import Num RNum Outcome Vec SpecVec VecFacts RotationFacts VecExtra MCTools Units Particle
  ParticleList ParticleFacts Source SourceFacts SourceRace SourceRaceFacts.
Import ListNotations.

(** C22: any arithmetic in which -1 = -1 and 1 <> -1; any engine delivering the requested number of
    normals.  The first k <= N calls return the events of samples 0 .. k-1, call N+1 ends the program. *)
Theorem C22_each_primary_once : forall (T : Type) (NT : Num T) (E : Engine T)
    (type distro : string) (N : Z) (e1 e2 dp dt dd : T) (x d : vec T) (track : bool) (g g0 : est E)
    (ty : ptype) (nm : string) (m q : Z),
  delivers E -> (0 <= N < 2 ^ 32)%Z -> species type ty nm m q ->
  neqb (nlit (-1) 0 : T) (nlit (-1) 0) = true -> neqb (n1 : T) (nlit (-1) 0) = false ->
  let s := fst (new_source E type distro N e1 e2 dp dt dd x d track g) in
  (forall k, (Z.of_nat k <= N)%Z ->
     exists ls s' g', generate_many E k s g0 = Ok (ls, s', g') /\ length ls = k /\
       forall i l, nth_error ls i = Some l -> event_of_sample s i ty nm m q l) /\
  (forall ls s' g' h, generate_many E (Z.to_nat N) s g0 = Ok (ls, s', g') -> generate_list E s' h = Exit 1).
Proof.
  intros T NT E type distro N e1 e2 dp dt dd x d track g g0 ty nm m q HD HN Hsp Hneg Hpos s.
  destruct (new_source_wf E type distro N e1 e2 dp dt dd x d track g HD HN) as (W & C & HNp & HT & _).
  fold s in W, C, HNp, HT. rewrite <- HT in Hsp.
  split.
  - intros k Hk.
    destruct (generate_many_spec E k s g0 ty nm m q Hneg Hpos Hsp W) as (ls & g' & H1 & H2 & H3); [lia|lia|].
    rewrite C in *. cbn [Z.to_nat Nat.add] in H3. eauto 6.
  - intros ls s' g' h HG.
    destruct (generate_many_spec E (Z.to_nat N) s g0 ty nm m q Hneg Hpos Hsp W) as (ls2 & g2 & H1 & _ & _); [lia|lia|].
    rewrite H1 in HG. injection HG as _ <- _. apply generate_depleted. cbn. lia.
Qed.
Print Assumptions C22_each_primary_once.

(** any other species name ends the program with code -1 on the first call *)
Theorem C22_unknown_species : forall (T : Type) (NT : Num T) (E : Engine T)
    (type distro : string) (N : Z) (e1 e2 dp dt dd : T) (x d : vec T) (track : bool) (g g0 : est E),
  delivers E -> (0 < N < 2 ^ 32)%Z -> (forall ty nm m q, ~ species type ty nm m q) ->
  generate_list E (fst (new_source E type distro N e1 e2 dp dt dd x d track g)) g0 = Exit (-1).
Proof.
  intros T NT E type distro N e1 e2 dp dt dd x d track g g0 HD HN Hno.
  destruct (new_source_wf E type distro N e1 e2 dp dt dd x d track g HD ltac:(lia)) as (W & C & HNp & HT & _).
  apply generate_unknown; auto; [rewrite C, HNp; lia | rewrite HT; auto].
Qed.
Print Assumptions C22_unknown_species.

(** the hypotheses are met by the exact reals and an engine *)
Example C22_case : delivers (mkEngine R R (fun s => (s, s)) (fun n s => (repeat s n, s))) /\
  neqb (nlit (-1) 0 : R) (nlit (-1) 0) = true /\ neqb (n1 : R) (nlit (-1) 0) = false /\
  species "photon" PPhoton "Photon" 0 0 /\ to_string 12 = "12"%string.
Proof.
  split; [intros n g; cbn; apply repeat_length|].
  split; [exact neqb_neg_R|]. split; [exact neqb_pos_R|]. split; [constructor|reflexivity].
Qed.

Local Open Scope R_scope.
(** C23 *)
Theorem C23_source_direction : forall (E : Engine R) (type distro : string) (N : Z) (e1 e2 dp dt : R)
    (x d : V3) (track : bool) (g g0 : est E) (ty : ptype) (nm : string) (m q : Z)
    (k : nat) (ls : list (plist (particle R))) (s' : source R) (g' : est E) (i : nat) (l : plist (particle R)),
  delivers E -> (0 <= N < 2 ^ 32)%Z -> (Z.of_nat k <= N)%Z -> species type ty nm m q ->
  d <> rzero -> / 10000000000 < rlen2 (rplus (runit d) ez) ->
  generate_many E k (fst (new_source E type distro N e1 e2 dp dt 0 x d track g)) g0 = Ok (ls, s', g') ->
  nth_error ls i = Some l ->
  exists p energy, pl_items l = [p] /\
    p_mom p = rscale energy (v3 (- vx (runit d)) (- vy (runit d)) (vz (runit d))).
Proof.
  intros E type distro N e1 e2 dp dt x d track g g0 ty nm m q k ls s' g' i l HD HN Hk Hsp Hd Hna HG Hi.
  destruct (C22_each_primary_once R _ E type distro N e1 e2 dp dt 0 x d track g g0 ty nm m q HD HN Hsp neqb_neg_R neqb_pos_R)
    as [H1 _].
  destruct (H1 k Hk) as (ls2 & s2 & g2 & HG2 & HL & Hev). rewrite HG in HG2. injection HG2 as <- _ _.
  specialize (Hev i l Hi). destruct Hev as (_ & p & Hp & _ & _ & _ & _ & _ & Hm & _).
  exists p. eexists. split; [exact Hp|]. rewrite Hm.
  rewrite (source_direction E type distro N e1 e2 dp dt x d track g i HD HN); auto.
  2:{ apply nth_error_Some_lt in Hi || (assert (i < length ls)%nat by (apply nth_error_Some; congruence); lia). }
  rewrite vnorm_R, smul_R. fold (mirrored d). rewrite runit_of_unit; [reflexivity|].
  unfold mirrored. pose proof (rlen2_unit d Hd) as HU. destruct (runit d) as [a b c]. unfold rlen2, rdot, v3 in *. cbn in *. lra.
Qed.
Print Assumptions C23_source_direction.

(** so a primary that moves at all has its momentum along the requested line only for requests along z, and a transverse request
    is served exactly backwards *)
Theorem C23_direction_right_only_along_z : forall (E : Engine R) (type distro : string) (N : Z) (e1 e2 dp dt : R)
    (x d : V3) (track : bool) (g g0 : est E) (ty : ptype) (nm : string) (m q : Z)
    (k : nat) (ls : list (plist (particle R))) (s' : source R) (g' : est E) (i : nat) (l : plist (particle R)) (p : particle R),
  delivers E -> (0 <= N < 2 ^ 32)%Z -> (Z.of_nat k <= N)%Z -> species type ty nm m q ->
  d <> rzero -> / 10000000000 < rlen2 (rplus (runit d) ez) ->
  generate_many E k (fst (new_source E type distro N e1 e2 dp dt 0 x d track g)) g0 = Ok (ls, s', g') ->
  nth_error ls i = Some l -> In p (pl_items l) -> p_mom p <> rzero ->
  exists energy, energy <> 0 /\
    p_mom p = rscale energy (v3 (- vx (runit d)) (- vy (runit d)) (vz (runit d))) /\
    (p_mom p = rscale energy (runit d) <-> vx d = 0 /\ vy d = 0) /\
    (vz d = 0 -> p_mom p = rscale (- energy) (runit d)).
Proof.
  intros E type distro N e1 e2 dp dt x d track g g0 ty nm m q k ls s' g' i l p HD HN Hk Hsp Hd Hna HG Hi HIn Hp.
  destruct (C23_source_direction E type distro N e1 e2 dp dt x d track g g0 ty nm m q k ls s' g' i l HD HN Hk Hsp Hd Hna HG Hi) as (p1 & e & HL & HM).
  rewrite HL in HIn. destruct HIn as [->|[]].
  assert (He : e <> 0). { intros ->. apply Hp. rewrite HM. unfold rscale, rzero, v3. cbn [vx vy vz]. f_equal; ring. }
  exists e. split; [auto|]. split; [auto|]. fold (mirrored d) in HM. split.
  - rewrite <- (mirrored_is_requested d Hd), HM. split; intros HX; [|now rewrite HX].
    pose proof (f_equal (@vx R) HX) as A. pose proof (f_equal (@vy R) HX) as B. pose proof (f_equal (@vz R) HX) as C. clear - A B C He. revert A B C. unfold rscale, v3.
    destruct (mirrored d) as [a1 a2 a3], (runit d) as [b1 b2 b3]. cbn [vx vy vz]. intros A B C.
    f_equal; apply (Rmult_eq_reg_l e); auto.
  - intros Hz. rewrite HM, (mirrored_transverse d Hz). unfold rscale, v3. cbn [vx vy vz]. f_equal; ring.
Qed.
Print Assumptions C23_direction_right_only_along_z.

Example C23_case : v3 1 0 0 <> rzero /\ / 10000000000 < rlen2 (rplus (runit (v3 1 0 0)) ez) /\
  runit (v3 1 0 0) = v3 1 0 0.
Proof.
  assert (runit (v3 1 0 0) = v3 1 0 0) by (apply runit_of_unit; runf; ring).
  split; [apply v3_neq; left; lra|]. split; [rewrite H; runf; lra|]. exact H.
Qed.

Local Open Scope nat_scope.
(** C24: every schedule of at most N calls: no exit, no access behind the tables *)
Theorem C24_no_overrun : forall (N threads : nat) (sched : list nat) (s : rstate),
  rrun N sched (rinit threads) = Some s -> begun s <= N ->
  r_exit s = false /\ r_oob s = false /\ (forall vs, In vs (r_done s) -> length vs = reads).
Proof. exact race_safe. Qed.
Print Assumptions C24_no_overrun.

(** non-overlapping calls by any threads: event i uses sample i in all its accesses *)
Theorem C24_serial_calls : forall (N threads : nat) (ts : list nat),
  (forall t, In t ts -> t < threads) -> length ts <= N ->
  rrun N (flat_map one_call ts) (rinit threads)
  = Some (mkR (length ts) (repeat None threads)
       (map (fun i => repeat i reads) (seq 0 (length ts))) false false).
Proof. exact serial_from_start. Qed.
Print Assumptions C24_serial_calls.

(** for every number of events N >= 2 and threads >= 2 there is a schedule in which the N events finish, two of
    them are sample 0, and sample 1 is used by none *)
Theorem C24_duplicate_primary : forall N threads : nat, 2 <= N -> 2 <= threads ->
  exists sched s, rrun N sched (rinit threads) = Some s /\ length (r_done s) = N /\ begun s = N /\
    nth_error (r_done s) 0 = Some (repeat 0 reads) /\ nth_error (r_done s) 1 = Some (repeat 0 reads) /\
    (forall vs i, In vs (r_done s) -> In i vs -> i <> 1).
Proof.
  intros N k HN Hk. exists (dup_schedule N). eexists. split; [apply race_duplicate; auto|].
  cbn [r_done]. split; [cbn; rewrite map_length, seq_length; lia|].
  split.
  { unfold begun, active; cbn [r_done r_exit r_calls]. rewrite repeat_none_active. cbn.
    rewrite map_length, seq_length. lia. }
  split; [reflexivity|]. split; [reflexivity|]. intros vs i. apply race_skip.
Qed.
Print Assumptions C24_duplicate_primary.

(** increments can be lost: a source of N samples then serves N + 1 calls, none of which ends the program *)
Theorem C24_lost_increment : forall N threads : nat, 1 <= N -> 2 <= threads ->
  exists sched s, rrun N sched (rinit threads) = Some s /\ length (r_done s) = N + 1 /\
    r_exit s = false /\ r_oob s = false /\ r_count s = N.
Proof.
  intros N k HN Hk. exists (lost_schedule N). eexists. split; [apply race_lost; auto|].
  cbn [r_done r_exit r_oob r_count length]. rewrite map_length, seq_length. split; [lia|auto].
Qed.
Print Assumptions C24_lost_increment.

(** a primary can be torn: x and y from sample 0; z, direction and energy from sample 1 *)
Theorem C24_torn_primary : exists sched s, rrun 2 sched (rinit 2) = Some s /\ begun s = 2 /\
  In (repeat 0 4 ++ repeat 1 7) (r_done s).
Proof.
  exists torn_schedule. eexists. split; [exact race_torn|]. split; [reflexivity|]. cbn [r_done]. right; left; reflexivity.
Qed.
Print Assumptions C24_torn_primary.

(** one call more than samples can read behind the tables instead of exiting *)
Theorem C24_extra_call_overruns : exists sched s, rrun 1 sched (rinit 2) = Some s /\ r_oob s = true /\ begun s = 2.
Proof. exists oob_schedule. exact race_oob. Qed.
Print Assumptions C24_extra_call_overruns.
