(** * The gather of the event tables and of the histograms, for all schedules *)
From Coq Require Import String ZArith List Bool Lia Arith Permutation.
From Verif Require Import Num Outcome OutcomeFacts Vec Units Particle ParticleList Fields Sim SimFacts Histogram Hdf5 Output OutFacts OutFile Mpi MpiFacts.
Import ListNotations.

Lemma s32_id z : (0 <= z < 2 ^ 31)%Z -> s32 z = z.
Proof. intros HZ. unfold s32. cbv zeta. rewrite Z.mod_small by lia. destruct (Z.ltb_spec z (2 ^ 31)); lia. Qed.
Lemma u64_id z : (0 <= z < 2 ^ 64)%Z -> u64 z = z.
Proof. intros HZ. unfold u64. apply Z.mod_small. lia. Qed.

Lemma skipn_skipn {X} a : forall b (l : list X), skipn a (skipn b l) = skipn (a + b) l.
Proof.
  intros b. induction b as [|b IH]; intros l; [rewrite Nat.add_0_r; reflexivity|]. destruct l as [|x l]; [rewrite !skipn_nil; reflexivity|].
  rewrite Nat.add_succ_r. cbn [skipn]. apply IH.
Qed.

Lemma upd_at {X} (l : list X) x y r : upd (l ++ x :: r) (length l) y = l ++ y :: r.
Proof. induction l as [|z l IH]; cbn; [auto|]. rewrite IH. auto. Qed.

Section Gather.
Context {T : Type} `{Num T}.
Variable code : objinfo.
Variable garbage : T.

Definition rows8 (rs : list (list T)) : Prop := forall r, In r rs -> length r = 8%nat.
Lemma rows8_app a b : rows8 a -> rows8 b -> rows8 (a ++ b).
Proof. intros HA HB r HR. apply in_app_iff in HR. destruct HR; auto. Qed.

(** Copies into the front of a larger buffer. *)
Lemma copy_front rs (pre post : list T) : rows8 rs -> (8 * length rs <= length post)%nat -> (Z.of_nat (length pre + length post) < 2 ^ 32)%Z ->
  copy_rows (Some (concat rs)) 0 (length rs) (pre ++ post) (Z.of_nat (length pre)) = Ok (pre ++ concat rs ++ skipn (8 * length rs) post, Z.of_nat (length pre + 8 * length rs)).
Proof.
  intros H8 HL HB. rewrite <- (firstn_skipn (8 * length rs) post) at 1. change 0%Z with (Z.of_nat 0). change (concat rs) with ([] ++ concat rs) at 1.
  rewrite (copy_rows_eq rs [] pre (firstn (8 * length rs) post) 0); auto; rewrite ?app_length, ?firstn_length; lia.
Qed.
Lemma prime_front rs : rows8 rs -> forall (pre post : list T) i, length pre = (8 * i)%nat -> (8 * length rs <= length post)%nat ->
  (Z.of_nat (length pre + length post) < 2 ^ 32)%Z ->
  prime_rows (map Some rs) (Z.of_nat i) (pre ++ post) = Ok (pre ++ concat rs ++ skipn (8 * length rs) post).
Proof.
  induction rs as [|r rs IH]; intros H8 pre post i HI HP HB; cbn [prime_rows map concat] in *; [reflexivity|].
  cbn [length] in HP. assert (HR : length r = 8%nat) by (apply H8; left; auto).
  pose proof (read_row_eq [] r []) as RR. cbn [app length] in RR. rewrite app_nil_r, HR in RR. change (Z.of_nat 0) with 0%Z in RR. rewrite RR by lia. cbn [bind].
  rewrite u32_id by lia. replace (Z.of_nat i * 8)%Z with (Z.of_nat (length pre)) by lia.
  rewrite <- (firstn_skipn 8 post) at 1. rewrite put_row_here; [|rewrite firstn_length; lia|rewrite app_length, firstn_length; lia]. cbn [bind].
  rewrite app_assoc. replace (Z.of_nat i + 1)%Z with (Z.of_nat (S i)) by lia. rewrite IH.
  - rewrite <- !app_assoc, skipn_skipn. cbn [length]. do 5 f_equal. lia.
  - intros q Hq. apply H8. right; auto.
  - rewrite app_length. lia.
  - rewrite skipn_length. lia.
  - rewrite app_length, skipn_length. lia.
Qed.
Lemma copy_own_front rows rss : Forall2 (fun o rs => o = Some (concat rs) \/ (o = None /\ rs = [])) rows rss ->
  (forall rs r, In rs rss -> In r rs -> length r = 8%nat) -> forall (pre post : list T),
  (8 * length (concat rss) <= length post)%nat -> (Z.of_nat (length pre + length post) < 2 ^ 32)%Z ->
  copy_own rows (map (fun rs => Z.of_nat (length rs)) rss) (pre ++ post) (Z.of_nat (length pre)) =
  Ok (pre ++ concat (concat rss) ++ skipn (8 * length (concat rss)) post, Z.of_nat (length pre + 8 * length (concat rss))).
Proof.
  induction 1 as [|o rs rows rss HO HF IH]; intros H8 pre post HP HB; cbn [copy_own map concat] in *.
  - cbn [length concat app]. rewrite Nat.mul_0_r, Nat.add_0_r. reflexivity.
  - rewrite app_length in HP. rewrite Nat2Z.id.
    assert (R8 : rows8 rs) by (intros r Hr; apply (H8 rs r); [left; auto|auto]).
    assert (HC : copy_rows o 0 (length rs) (pre ++ post) (Z.of_nat (length pre)) = Ok (pre ++ concat rs ++ skipn (8 * length rs) post, Z.of_nat (length pre + 8 * length rs))).
    { destruct HO as [-> | [-> ->]]; [apply copy_front; auto; lia|]. cbn [length copy_rows concat app]. rewrite Nat.mul_0_r, Nat.add_0_r. reflexivity. }
    rewrite HC. cbn [bind fst snd]. rewrite app_assoc.
    replace (length pre + 8 * length rs)%nat with (length (pre ++ concat rs)) by (rewrite app_length, concat_length8 by auto; lia).
    rewrite IH.
    + rewrite concat_app, <- !app_assoc, skipn_skipn, !app_length, (concat_length8 rs R8). do 2 f_equal; [|lia]. do 4 f_equal. lia.
    + intros q r Hq. apply H8. right; auto.
    + rewrite skipn_length. lia.
    + rewrite app_length, concat_length8, skipn_length by auto. lia.
Qed.
Lemma total64_eq (rss : list (list (list T))) : forall a, (0 <= a)%Z -> (a + Z.of_nat (length (concat rss)) < 2 ^ 64)%Z ->
  fold_left (fun a c => u64 (a + c)) (map (fun rs : list (list T) => Z.of_nat (length rs)) rss) a = (a + Z.of_nat (length (concat rss)))%Z.
Proof.
  induction rss as [|rs rss IH]; intros a HA HB; cbn [map fold_left concat] in *; [cbn; lia|]. rewrite app_length in *.
  rewrite u64_id by lia. rewrite IH by lia. lia.
Qed.

(** ** The data of a rank *)
Record rdata := mkRD { d_prim : list (list T); d_el : list (list (list T)); d_po : list (list (list T)); d_ph : list (list (list T)) }.
Definition has (s : om T) (d : rdata) : Prop :=
  om_prim s = map Some (d_prim d) /\ rows8 (d_prim d) /\ holds (om_el s) (d_el d) /\ holds (om_po s) (d_po d) /\ holds (om_ph s) (d_ph d).
(** rows of the four tables *)
Definition t_pr (d : rdata) : list (list T) := d_prim d.
Definition t_el (d : rdata) : list (list T) := concat (d_el d).
Definition t_po (d : rdata) : list (list T) := concat (d_po d).
Definition t_ph (d : rdata) : list (list T) := concat (d_ph d).
Definition good (d : rdata) : Prop := rows8 (t_pr d) /\ rows8 (t_el d) /\ rows8 (t_po d) /\ rows8 (t_ph d).
Lemma has_good s d : has s d -> good d.
Proof.
  intros (_ & H1 & (_ & _ & H2) & (_ & _ & H3) & (_ & _ & H4)). split; [auto|].
  repeat split; intros r HR; apply in_concat in HR; destruct HR as (rs & A & B); eauto.
Qed.
Definition size (rs : list (list T)) : Z := Z.of_nat (8 * length rs).
Definition sendD (tag : Z) (rs : list (list T)) : act T := ASend (mkMsg tag (PD (concat rs))).
Definition sendI (tag : Z) (rs : list (list T)) : act T := ASend (mkMsg tag (PI [size rs])).
(** stages of the protocol of one rank *)
Definition st3 (x : rdata * list (act T)) : list (act T) := snd x.
Definition st2 (x : rdata * list (act T)) : list (act T) :=
  [sendD electronTag (t_el (fst x)); sendD positronTag (t_po (fst x)); sendD photonTag (t_ph (fst x))] ++ st3 x.
Definition st1 (x : rdata * list (act T)) : list (act T) :=
  [sendI electronTag (t_el (fst x)); sendI positronTag (t_po (fst x)); sendI photonTag (t_ph (fst x))] ++ st2 x.
Definition st0 (x : rdata * list (act T)) : list (act T) := sendD primaryTag (t_pr (fst x)) :: st1 x.

Lemma slave_source_eq s d : has s d -> (forall t, In t [t_pr d; t_el d; t_po d; t_ph d] -> (size t < 2 ^ 31)%Z) ->
  slave_source garbage s = Ok (st0 (d, [])).
Proof.
  intros HH HB. pose proof (has_good _ _ HH) as (G1 & G2 & G3 & G4). destruct HH as (E1 & _ & H2 & H3 & H4). unfold slave_source. rewrite E1.
  assert (B1 : (size (t_pr d) < 2 ^ 31)%Z) by (apply HB; cbn; auto). assert (B2 : (size (t_el d) < 2 ^ 31)%Z) by (apply HB; cbn; auto).
  assert (B3 : (size (t_po d) < 2 ^ 31)%Z) by (apply HB; cbn; auto). assert (B4 : (size (t_ph d) < 2 ^ 31)%Z) by (apply HB; cbn; auto).
  unfold size in *. unfold t_pr in *.
  pose proof (prime_front (d_prim d) G1 [] (repeat garbage (length (map Some (d_prim d)) * 8)) 0) as PR. cbn [app] in PR. change (Z.of_nat 0) with 0%Z in PR.
  rewrite PR; [|reflexivity|rewrite repeat_length, map_length; lia|rewrite repeat_length, map_length; cbn [length]; lia]. cbn [bind].
  rewrite skipn_all2 by (rewrite repeat_length, map_length; lia). rewrite app_nil_r.
  assert (SD : forall tag rs z, rows8 rs -> z = size rs -> (size rs < 2 ^ 31)%Z -> send_double tag z (concat rs) = Ok (sendD tag rs)).
  { intros tag rs z R8 -> HS. unfold send_double. unfold size in *. rewrite s32_id by lia. destruct (Z.ltb_spec (Z.of_nat (8 * length rs)) 0); [lia|].
    rewrite concat_length8 by auto. rewrite Z.ltb_irrefl. unfold sendD. rewrite Nat2Z.id. rewrite firstn_all2; [auto|]. rewrite concat_length8 by auto. lia. }
  rewrite (SD primaryTag (d_prim d)); [|exact G1|unfold len, size; rewrite map_length; lia|exact B1]. cbn [bind].
  assert (SB : forall (tb : table T) rss, holds tb rss -> rows8 (concat rss) -> (size (concat rss) < 2 ^ 31)%Z ->
    u64 (total64 (tb_count tb) * 8) = size (concat rss) /\ slave_buffer garbage tb = Ok (concat (concat rss), size (concat rss))).
  { intros tb rss (HC & HF & H8) R8 HS. unfold size in *. assert (HT : total64 (tb_count tb) = Z.of_nat (length (concat rss))) by (unfold total64; rewrite HC, total64_eq; lia).
    unfold slave_buffer. rewrite HT, u64_id by lia. split; [lia|]. rewrite HC. rewrite <- (app_nil_l (repeat garbage _)). pose proof (copy_own_front (tb_rows tb) rss HF H8 [] (repeat garbage (Z.to_nat (Z.of_nat (length (concat rss)) * 8)))) as CO.
    change (Z.of_nat (length [])) with 0%Z in CO. rewrite CO; [|rewrite repeat_length; lia|rewrite repeat_length; cbn [length]; lia].
    rewrite skipn_all2 by (rewrite repeat_length; lia). rewrite app_nil_r. reflexivity. }
  destruct (SB _ _ H2 G2 B2) as [U2 S2]. destruct (SB _ _ H3 G3 B3) as [U3 S3]. destruct (SB _ _ H4 G4 B4) as [U4 S4]. rewrite S2, S3, S4. cbn [bind fst]. rewrite U2, U3, U4.
  fold (t_el d) (t_po d) (t_ph d).
  rewrite !SD; auto. cbn [bind]. unfold send_size. unfold size. rewrite !s32_id by lia. reflexivity.
Qed.

(** ** The loops of the master *)
Definition tot (f : rdata -> list (list T)) (zs : list (rdata * list (act T))) : list (list T) := flat_map (fun x => f (fst x)) zs.
Definition goods (zs : list (rdata * list (act T))) : Prop := forall x, In x zs -> good (fst x).

Lemma iadd_wp a b ps (Q : _ -> _ -> Prop) : (0 <= a + b < 2 ^ 31)%Z -> Q (a + b)%Z ps -> wp (@iadd T a b) ps Q.
Proof.
  intros HB HQ. unfold iadd. destruct (Z.leb_spec (- 2 ^ 31) (a + b)); [|lia]. destruct (Z.ltb_spec (a + b) (2 ^ 31)); [|lia]. exact HQ.
Qed.
Lemma size_app a b : size (a ++ b) = (size a + size b)%Z.
Proof. unfold size. rewrite app_length. lia. Qed.
Lemma size_pos a : (0 <= size a)%Z.
Proof. unfold size. lia. Qed.
Lemma nth_mid {X} (f : X -> list (act T)) (a : list (list (act T))) x b : nth_error (a ++ map f (x :: b)) (length a) = Some (f x).
Proof. rewrite nth_error_app2 by lia. rewrite Nat.sub_diag. reflexivity. Qed.

Lemma probes_wp b : forall a t (Q : _ -> _ -> Prop), (forall x, In x b -> rows8 (t_pr (fst x))) -> (0 <= t)%Z -> (t + size (tot t_pr b) < 2 ^ 31)%Z ->
  Q (map (fun x => size (t_pr (fst x))) b, (t + size (tot t_pr b))%Z) (map st0 (a ++ b)) ->
  wp (probes (T := T) (seq (length a) (length b)) t) (map st0 (a ++ b)) Q.
Proof.
  induction b as [|x b IH]; intros a t Q HG HT HB HQ; cbn [length seq probes map tot flat_map] in *.
  - cbn [wp]. change (size []) with 0%Z in HQ. rewrite Z.add_0_r in HQ. exact HQ.
  - rewrite size_app in HB, HQ. fold (tot t_pr b) in HB, HQ. pose proof (size_pos (t_pr (fst x))). pose proof (size_pos (tot t_pr b)).
    cbn [wp]. eexists. eexists. split; [rewrite map_app; rewrite <- (map_length st0 a); apply (nth_mid st0 (map st0 a) x b)|]. cbn [m_tag m_data]. split; [reflexivity|].
    apply wp_bind. assert (PS : psize (PD (concat (t_pr (fst x)))) = size (t_pr (fst x))) by (cbn [psize]; unfold size; rewrite concat_length8 by (apply HG; left; auto); reflexivity).
    rewrite PS. apply iadd_wp; [lia|]. apply wp_bind. replace (a ++ x :: b) with ((a ++ [x]) ++ b) by (rewrite <- app_assoc; reflexivity).
    replace (S (length a)) with (length (a ++ [x])) by (rewrite app_length; cbn [length]; lia). apply IH; [intros y Hy; apply HG; right; auto|lia|lia|].
    cbn [wp fst snd]. rewrite <- app_assoc. cbn [app]. rewrite <- Z.add_assoc. exact HQ.
Qed.

Lemma recv_rows_wp i tag rs pre post ps r (Q : _ -> _ -> Prop) : nth_error ps i = Some (sendD tag rs :: r) -> rows8 rs -> (8 * length rs <= length post)%nat ->
  (Z.of_nat (length pre + length post) < 2 ^ 32)%Z ->
  Q (pre ++ concat rs ++ skipn (8 * length rs) post, Z.of_nat (length pre + 8 * length rs)) (upd ps i r) ->
  wp (recv_rows garbage i tag (size rs) (pre ++ post) (Z.of_nat (length pre))) ps Q.
Proof.
  intros HN R8 HL HB HQ. unfold recv_rows. apply wp_bind. unfold inew. pose proof (size_pos rs). destruct (Z.ltb_spec (size rs) 0); [lia|]. cbn [wp].
  exists (concat rs), r. split; [exact HN|]. split; [unfold size; rewrite concat_length8 by auto; lia|].
  rewrite skipn_all2 by (rewrite repeat_length, concat_length8 by auto; unfold size; lia). rewrite app_nil_r.
  replace (Z.to_nat (size rs / 8)) with (length rs).
  - rewrite copy_front by auto. cbn [local wp]. exact HQ.
  - unfold size. rewrite Nat2Z.inj_mul. change (Z.of_nat 8) with 8%Z. rewrite Z.mul_comm, Z.div_mul by lia. lia.
Qed.

Lemma recv_prime_wp b : forall a pre post (Q : _ -> _ -> Prop), (forall x, In x b -> rows8 (t_pr (fst x))) -> length post = (8 * length (tot t_pr b))%nat ->
  (Z.of_nat (length pre + length post) < 2 ^ 32)%Z ->
  Q (pre ++ concat (tot t_pr b)) (map st1 (a ++ b)) ->
  wp (recv_prime garbage (seq (length a) (length b)) (map (fun x => size (t_pr (fst x))) b) (pre ++ post) (Z.of_nat (length pre))) (map st1 a ++ map st0 b) Q.
Proof.
  induction b as [|x b IH]; intros a pre post Q HG HP HB HQ; cbn [length seq recv_prime map tot flat_map] in *.
  - cbn [wp]. destruct post; [|discriminate]. rewrite app_nil_r in HQ. cbn [map]. rewrite !app_nil_r in *. exact HQ.
  - fold (tot t_pr b) in *. rewrite app_length in HP. rewrite <- (map_length st1 a). apply wp_bind. eapply recv_rows_wp.
    + apply (nth_mid st0 (map st1 a) x b).
    + apply HG; left; auto.
    + lia.
    + lia.
    + cbn [fst snd]. cbn [map]. rewrite upd_at.
      replace (map st1 a ++ st1 x :: map st0 b) with (map st1 (a ++ [x]) ++ map st0 b) by (rewrite map_app, <- app_assoc; reflexivity).
      rewrite app_assoc. replace (length pre + 8 * length (t_pr (fst x)))%nat with (length (pre ++ concat (t_pr (fst x)))) by (rewrite app_length, concat_length8 by (apply HG; left; auto); lia).
      replace (S (length (map st1 a))) with (length (a ++ [x])) by (rewrite app_length, map_length; cbn [length]; lia). apply IH.
      * intros y Hy. apply HG. right; auto.
      * rewrite skipn_length. lia.
      * rewrite app_length, skipn_length, concat_length8 by (apply HG; left; auto). lia.
      * rewrite <- !app_assoc. rewrite concat_app in HQ. exact HQ.
Qed.

Lemma recv_size_wp i tag rs t ps r (Q : _ -> _ -> Prop) : nth_error ps i = Some (sendI tag rs :: r) -> (0 <= t)%Z -> (t + size rs < 2 ^ 31)%Z ->
  Q (size rs, (t + size rs)%Z) (upd ps i r) -> wp (recv_size (T := T) i tag t) ps Q.
Proof.
  intros HN HT HB HQ. unfold recv_size. pose proof (size_pos rs). cbn [wp]. exists [size rs], r. split; [exact HN|]. split; [cbn; lia|]. apply wp_bind. apply iadd_wp; [lia|]. exact HQ.
Qed.

Lemma upd_twice {X} (l : list X) : forall i x y, upd (upd l i x) i y = upd l i y.
Proof. induction l as [|z l IH]; intros [|i] x y; cbn; auto. rewrite IH. auto. Qed.
Lemma nth_upd_here {X} (l : list X) x y r : nth_error (upd (l ++ x :: r) (length l) y) (length l) = Some y.
Proof. rewrite upd_at, nth_error_app2 by lia. rewrite Nat.sub_diag. reflexivity. Qed.

Lemma recv_sizes_wp b : forall a te tp tg (Q : _ -> _ -> Prop), (0 <= te)%Z -> (0 <= tp)%Z -> (0 <= tg)%Z ->
  (te + size (tot t_el b) < 2 ^ 31)%Z -> (tp + size (tot t_po b) < 2 ^ 31)%Z -> (tg + size (tot t_ph b) < 2 ^ 31)%Z ->
  Q (map (fun x => (size (t_el (fst x)), size (t_po (fst x)), size (t_ph (fst x)))) b,
     ((te + size (tot t_el b))%Z, (tp + size (tot t_po b))%Z, (tg + size (tot t_ph b))%Z)) (map st2 (a ++ b)) ->
  wp (recv_sizes (T := T) (seq (length a) (length b)) te tp tg) (map st2 a ++ map st1 b) Q.
Proof.
  induction b as [|x b IH]; intros a te tp tg Q He Hp Hg Be Bp Bg HQ; cbn [length seq recv_sizes map tot flat_map] in *.
  - cbn [wp]. change (size []) with 0%Z in HQ. rewrite !Z.add_0_r in HQ. rewrite !app_nil_r in *. exact HQ.
  - rewrite !size_app in *. fold (tot t_el b) in *. fold (tot t_po b) in *. fold (tot t_ph b) in *.
    pose proof (size_pos (t_el (fst x))). pose proof (size_pos (t_po (fst x))). pose proof (size_pos (t_ph (fst x))).
    pose proof (size_pos (tot t_el b)). pose proof (size_pos (tot t_po b)). pose proof (size_pos (tot t_ph b)).
    rewrite <- (map_length st2 a).
    apply wp_bind. eapply recv_size_wp; [apply (nth_mid st1 (map st2 a) x b)|lia|lia|]. cbn [map].
    apply wp_bind. eapply recv_size_wp; [apply nth_upd_here|cbn [fst snd]; lia|lia|]. rewrite upd_twice.
    apply wp_bind. eapply recv_size_wp; [apply nth_upd_here|cbn [fst snd]; lia|lia|]. rewrite upd_twice, upd_at. cbn [fst snd].
    apply wp_bind. change ([sendD electronTag (t_el (fst x)); sendD positronTag (t_po (fst x)); sendD photonTag (t_ph (fst x))] ++ st3 x) with (st2 x).
    replace (map st2 a ++ st2 x :: map st1 b) with (map st2 (a ++ [x]) ++ map st1 b) by (rewrite map_app, <- app_assoc; reflexivity).
    replace (S (length (map st2 a))) with (length (a ++ [x])) by (rewrite app_length, map_length; cbn [length]; lia). apply IH; try lia.
    cbn [wp fst snd]. rewrite <- app_assoc. cbn [app]. rewrite <- !Z.add_assoc. exact HQ.
Qed.

Lemma recv_tables_wp b : forall a e1 e2 p1 p2 g1 g2 (Q : _ -> _ -> Prop), goods b ->
  length e2 = (8 * length (tot t_el b))%nat -> length p2 = (8 * length (tot t_po b))%nat -> length g2 = (8 * length (tot t_ph b))%nat ->
  (Z.of_nat (length e1 + length e2) < 2 ^ 32)%Z -> (Z.of_nat (length p1 + length p2) < 2 ^ 32)%Z -> (Z.of_nat (length g1 + length g2) < 2 ^ 32)%Z ->
  Q (e1 ++ concat (tot t_el b), p1 ++ concat (tot t_po b), g1 ++ concat (tot t_ph b)) (map st3 (a ++ b)) ->
  wp (recv_tables garbage (seq (length a) (length b)) (map (fun x => (size (t_el (fst x)), size (t_po (fst x)), size (t_ph (fst x)))) b)
       (e1 ++ e2, Z.of_nat (length e1)) (p1 ++ p2, Z.of_nat (length p1)) (g1 ++ g2, Z.of_nat (length g1))) (map st3 a ++ map st2 b) Q.
Proof.
  induction b as [|x b IH]; intros a e1 e2 p1 p2 g1 g2 Q HG Le Lp Lg Be Bp Bg HQ; cbn [length seq recv_tables map tot flat_map] in *.
  - destruct e2; [|discriminate]. destruct p2; [|discriminate]. destruct g2; [|discriminate]. cbn [wp fst]. rewrite !app_nil_r in *. exact HQ.
  - fold (tot t_el b) in *. fold (tot t_po b) in *. fold (tot t_ph b) in *. rewrite !app_length in Le, Lp, Lg.
    destruct (HG x (or_introl eq_refl)) as (_ & G2 & G3 & G4). rewrite <- (map_length st3 a). cbn [fst snd].
    apply wp_bind. eapply recv_rows_wp; [apply (nth_mid st2 (map st3 a) x b)|auto|lia|lia|]. cbn [map].
    apply wp_bind. eapply recv_rows_wp; [apply nth_upd_here|auto|lia|lia|]. rewrite upd_twice.
    apply wp_bind. eapply recv_rows_wp; [apply nth_upd_here|auto|lia|lia|]. rewrite upd_twice, upd_at.
    replace (map st3 a ++ st3 x :: map st2 b) with (map st3 (a ++ [x]) ++ map st2 b) by (rewrite map_app, <- app_assoc; reflexivity).
    replace (S (length (map st3 a))) with (length (a ++ [x])) by (rewrite app_length, map_length; cbn [length]; lia).
    rewrite (app_assoc e1), (app_assoc p1), (app_assoc g1).
    replace (length e1 + 8 * length (t_el (fst x)))%nat with (length (e1 ++ concat (t_el (fst x)))) by (rewrite app_length, concat_length8 by auto; lia).
    replace (length p1 + 8 * length (t_po (fst x)))%nat with (length (p1 ++ concat (t_po (fst x)))) by (rewrite app_length, concat_length8 by auto; lia).
    replace (length g1 + 8 * length (t_ph (fst x)))%nat with (length (g1 ++ concat (t_ph (fst x)))) by (rewrite app_length, concat_length8 by auto; lia).
    apply IH; [intros y Hy; apply HG; right; auto|rewrite skipn_length; lia|rewrite skipn_length; lia|rewrite skipn_length; lia| | | |].
    + rewrite app_length, skipn_length, concat_length8 by auto. lia.
    + rewrite app_length, skipn_length, concat_length8 by auto. lia.
    + rewrite app_length, skipn_length, concat_length8 by auto. lia.
    + rewrite <- !app_assoc. rewrite !concat_app in HQ. exact HQ.
Qed.

Lemma local_wp {A} (r : res A) a ps (Q : A -> _ -> Prop) : r = Ok a -> Q a ps -> wp (T := T) (local r) ps Q.
Proof. intros -> HQ. exact HQ. Qed.
Lemma inew_wp n ps (Q : _ -> _ -> Prop) : (0 <= n)%Z -> Q (repeat garbage (Z.to_nat n)) ps -> wp (inew garbage n) ps Q.
Proof. intros HN HQ. unfold inew. destruct (Z.ltb_spec n 0); [lia|]. exact HQ. Qed.
Lemma size_div rs : (size rs / 8 = Z.of_nat (length rs))%Z.
Proof. unfold size. rewrite Nat2Z.inj_mul. change (Z.of_nat 8) with 8%Z. rewrite Z.mul_comm, Z.div_mul by lia. reflexivity. Qed.
Lemma out_gathered_new (s : om T) rows name : rows8 rows ->
  path ("Particles/ParticleSource/" ++ name) = ["Particles"; "ParticleSource"; name]%string ->
  lookup (f_tree (om_file s)) ["Particles"; "ParticleSource"; name]%string = None ->
  lookup (f_tree (om_file s)) ["Particles"; "ParticleSource"]%string = Some Grp ->
  out_gathered s (size rows) (concat rows) name = Ok (with_file s (mkFile (table_entry name rows ++ f_tree (om_file s)) (f_group (om_file s)))).
Proof.
  intros H8 HP HN HG. unfold out_gathered. rewrite size_div. destruct rows as [|r rows].
  - cbn. destruct s as [[t g] ? ? ? ? ? ? ? ? ?]. reflexivity.
  - destruct (Z.ltb_spec 0 (size (r :: rows))) as [_|HX]; [|unfold size in HX; cbn [length] in HX; lia]. rewrite o_array_new.
    + rewrite HP. reflexivity.
    + rewrite HP. cbn [exists_]. rewrite HN. reflexivity.
    + rewrite HP. cbn [removelast is_group]. rewrite HG. reflexivity.
    + rewrite concat_length8 by auto. cbn [zprod]. lia.
Qed.

(** the rows of all ranks, in rank order *)
Definition gathered (f : rdata -> list (list T)) (d0 : rdata) (zs : list (rdata * list (act T))) : list (list T) := f d0 ++ tot f zs.
Definition gathered_file (d0 : rdata) (zs : list (rdata * list (act T))) (s : om T) : om T :=
  with_file (with_source s) (mkFile (table_entry "Photons" (gathered t_ph d0 zs) ++ table_entry "Positrons" (gathered t_po d0 zs) ++
      table_entry "Electrons" (gathered t_el d0 zs) ++
      (["Particles"; "ParticleSource"; "Primary"]%string, Dat [Z.of_nat (length (gathered t_pr d0 zs)); 8%Z] (concat (gathered t_pr d0 zs))) ::
      (["Particles"; "ParticleSource"]%string, Grp) :: f_tree (om_file s)) GLive).

Lemma tot8 f zs : (forall x, In x zs -> rows8 (f (fst x))) -> rows8 (tot f zs).
Proof. intros HG r HR. unfold tot in HR. apply in_flat_map in HR. destruct HR as (x & A & B). eapply HG; eauto. Qed.

Lemma gather_wp s d0 zs (Q : om T -> list (list (act T)) -> Prop) : objinfo_inverted code -> has s d0 -> goods zs -> om_source s = false ->
  f_group (om_file s) <> GFreed -> lookup (f_tree (om_file s)) ["Particles"%string] = Some Grp ->
  (forall q, lookup (f_tree (om_file s)) (["Particles"; "ParticleSource"]%string ++ q) = None) ->
  (forall f, In f [t_pr; t_el; t_po; t_ph] -> (size (gathered f d0 zs) < 2 ^ 31)%Z) ->
  Q (gathered_file d0 zs s) (map st3 zs) ->
  wp (gather code garbage (seq 0 (length zs)) s) (map st0 zs) Q.
Proof.
  intros HI HH HG HB HF HP HN HS HQ. unfold gather. rewrite HB.
  assert (B1 : (size (gathered t_pr d0 zs) < 2 ^ 31)%Z) by (apply HS; cbn; auto). assert (B2 : (size (gathered t_el d0 zs) < 2 ^ 31)%Z) by (apply HS; cbn; auto).
  assert (B3 : (size (gathered t_po d0 zs) < 2 ^ 31)%Z) by (apply HS; cbn; auto). assert (B4 : (size (gathered t_ph d0 zs) < 2 ^ 31)%Z) by (apply HS; cbn; auto). clear HS.
  pose proof (has_good _ _ HH) as (G1 & G2 & G3 & G4). destruct HH as (E1 & _ & H2 & H3 & H4).
  assert (W1 : forall x, In x zs -> rows8 (t_pr (fst x))) by (intros x Hx; apply HG; auto). assert (W2 : forall x, In x zs -> rows8 (t_el (fst x))) by (intros x Hx; apply HG; auto).
  assert (W3 : forall x, In x zs -> rows8 (t_po (fst x))) by (intros x Hx; apply HG; auto). assert (W4 : forall x, In x zs -> rows8 (t_ph (fst x))) by (intros x Hx; apply HG; auto).
  unfold gathered in B1, B2, B3, B4. rewrite size_app in B1, B2, B3, B4.
  pose proof (size_pos (t_pr d0)) as p1. pose proof (size_pos (t_el d0)) as p2. pose proof (size_pos (t_po d0)) as p3. pose proof (size_pos (t_ph d0)) as p4.
  pose proof (size_pos (tot t_pr zs)) as q1. pose proof (size_pos (tot t_el zs)) as q2. pose proof (size_pos (tot t_po zs)) as q3. pose proof (size_pos (tot t_ph zs)) as q4.
  pose proof (HN []) as N0. cbn [app] in N0.
  apply wp_bind. eapply local_wp. { rewrite o_group_new; auto; [|cbn; rewrite N0; reflexivity|cbn; rewrite HP; reflexivity]. cbn [bind]. reflexivity. }
  set (s1 := with_source _). assert (P1 : om_prim s1 = map Some (t_pr d0)) by exact E1. rewrite P1.
  assert (EO : s32 (len (map Some (t_pr d0)) * 8) = size (t_pr d0)).
  { unfold len, size in *. rewrite map_length. rewrite s32_id; lia. }
  rewrite EO. apply wp_bind. apply (probes_wp zs []); auto. cbn [app fst snd].
  apply wp_bind. apply inew_wp; [lia|]. unfold size in *.
  apply wp_bind. eapply local_wp.
  { rewrite <- (app_nil_l (repeat garbage _)). change 0%Z with (Z.of_nat 0). rewrite (prime_front (t_pr d0) G1 []); [reflexivity|reflexivity|rewrite repeat_length; lia|rewrite repeat_length; cbn [length]; lia]. }
  cbn [app]. apply wp_bind.
  replace (Z.of_nat (8 * length (t_pr d0))) with (Z.of_nat (length (concat (t_pr d0)))) by (rewrite concat_length8 by auto; reflexivity).
  apply (recv_prime_wp zs []); auto; [rewrite skipn_length, repeat_length; rewrite concat_length8 by auto; lia|rewrite skipn_length, repeat_length; rewrite concat_length8 by auto; lia|]. cbn [app].
  assert (TG : forall (a b : list (list T)), (Z.of_nat (length (concat a)) = Z.of_nat (8 * length a))%Z -> ((Z.of_nat (length (concat a)) + Z.of_nat (8 * length b)) / 8)%Z = Z.of_nat (length (a ++ b))).
  { intros a b HA. rewrite HA, app_length. replace (Z.of_nat (8 * length a) + Z.of_nat (8 * length b))%Z with (Z.of_nat (length a + length b) * 8)%Z by lia. rewrite Z.div_mul by lia. reflexivity. }
  rewrite TG by (rewrite concat_length8 by auto; reflexivity). rewrite <- concat_app. fold (gathered t_pr d0 zs).
  pose proof (HN ["Primary"%string]) as N1. cbn [app] in N1.
  apply wp_bind. eapply local_wp.
  { rewrite o_array_new; [reflexivity| | |].
    - cbn [s1 with_source with_file om_file f_tree]. change (path "Particles/ParticleSource/Primary") with ["Particles"; "ParticleSource"; "Primary"]%string. cbn [exists_]. rewrite lookup_cons.
      change (path "Particles/ParticleSource") with ["Particles"; "ParticleSource"]%string.
      destruct (list_eq_dec string_dec _ _) as [X1|_]; [discriminate|]. rewrite N1. reflexivity.
    - cbn [s1 with_source with_file om_file f_tree]. change (path "Particles/ParticleSource/Primary") with ["Particles"; "ParticleSource"; "Primary"]%string. cbn [removelast is_group]. rewrite lookup_cons.
      change (path "Particles/ParticleSource") with ["Particles"; "ParticleSource"]%string.
      destruct (list_eq_dec string_dec _ _) as [_|X1]; [reflexivity|contradiction].
    - assert (rows8 (gathered t_pr d0 zs)) by (apply rows8_app; [auto|apply tot8; auto]). rewrite concat_length8 by auto. cbn [zprod]. lia. } 
  match goal with |- context [with_file s1 ?f] => set (s2 := with_file s1 f) end. change (om_el s2) with (om_el s). change (om_po s2) with (om_po s). change (om_ph s2) with (om_ph s).
  assert (TE : forall (tb : table T) rss, holds tb rss -> (Z.of_nat (8 * length (concat rss)) < 2 ^ 31)%Z -> s32 (total64 (tb_count tb) * 8) = Z.of_nat (8 * length (concat rss))).
  { intros tb rss (HC & _ & _) HL. unfold total64. rewrite HC, total64_eq by lia. rewrite s32_id; lia. }
  rewrite (TE _ _ H2) by (change (concat (d_el d0)) with (t_el d0); lia). rewrite (TE _ _ H3) by (change (concat (d_po d0)) with (t_po d0); lia). rewrite (TE _ _ H4) by (change (concat (d_ph d0)) with (t_ph d0); lia).
  fold (t_el d0) (t_po d0) (t_ph d0).
  apply wp_bind. apply (recv_sizes_wp zs []); unfold size; try lia. cbn [app fst snd]. unfold size.
  apply wp_bind. apply inew_wp; [lia|]. apply wp_bind. apply inew_wp; [lia|]. apply wp_bind. apply inew_wp; [lia|].
  assert (CP : forall (tb : table T) rss n, holds tb rss -> (8 * length (concat rss) <= n)%nat -> (Z.of_nat n < 2 ^ 32)%Z ->
     copy_own (tb_rows tb) (tb_count tb) (repeat garbage n) 0 = Ok (concat (concat rss) ++ skipn (8 * length (concat rss)) (repeat garbage n), Z.of_nat (length (concat (concat rss))))).
  { intros tb rss n (HC & HF2 & H8) HL HB2. rewrite HC. pose proof (copy_own_front (tb_rows tb) rss HF2 H8 [] (repeat garbage n)) as CO. cbn [app length] in CO. change (Z.of_nat 0) with 0%Z in CO.
    rewrite CO; [|rewrite repeat_length; lia|rewrite repeat_length; lia]. rewrite (concat_length8 (concat rss)).
    2:{
    intros r HR. apply in_concat in HR. destruct HR as (rs & A & B). eauto. }
    reflexivity. }
  apply wp_bind. eapply local_wp; [apply CP; [exact H2|change (concat (d_el d0)) with (t_el d0); lia|lia]|].
  apply wp_bind. eapply local_wp; [apply CP; [exact H3|change (concat (d_po d0)) with (t_po d0); lia|lia]|].
  apply wp_bind. eapply local_wp; [apply CP; [exact H4|change (concat (d_ph d0)) with (t_ph d0); lia|lia]|].
  fold (t_el d0) (t_po d0) (t_ph d0). apply wp_bind.
  apply (recv_tables_wp zs []); auto; try (rewrite ?skipn_length, ?repeat_length, ?concat_length8 by auto; lia). cbn [app].
  rewrite <- !concat_app. fold (gathered t_el d0 zs) (gathered t_po d0 zs) (gathered t_ph d0 zs).
  assert (SZ : forall a b : list (list T), (Z.of_nat (8 * length a) + Z.of_nat (8 * length b))%Z = size (a ++ b)) by (intros a b; rewrite size_app; reflexivity).
  rewrite !SZ. fold (gathered t_el d0 zs) (gathered t_po d0 zs) (gathered t_ph d0 zs).
  assert (LE : forall b r (t : tree T) q, (forall n0, ~ In (q, n0) (table_entry b r)) -> lookup (table_entry b r ++ t) q = lookup t q).
  { intros b r t q HX. destruct r as [|x r]; [reflexivity|]. cbn [table_entry app]. rewrite lookup_cons.
    destruct (list_eq_dec string_dec q ["Particles"; "ParticleSource"; b]%string) as [->|]; [|auto]. exfalso. eapply HX. left. reflexivity. }
  assert (NE : forall a b (r : list (list T)), a <> b -> forall n0 : node T, ~ In (["Particles"; "ParticleSource"; a]%string, n0) (table_entry b r)).
  { intros a b r HAB n0 HX. destruct r; [contradiction|]. destruct HX as [HX|[]]. injection HX; intros; congruence. }
  assert (NS : forall b (r : list (list T)) (n0 : node T), ~ In (["Particles"; "ParticleSource"]%string, n0) (table_entry b r)).
  { intros b r n0 HX. destruct r; [contradiction|]. destruct HX as [HX|[]]. discriminate. }
  assert (BASE : forall a, a <> "Primary"%string -> lookup (f_tree (om_file s2)) ["Particles"; "ParticleSource"; a]%string = None).
  { intros a Ha. cbn [s2 s1 with_file with_source om_file f_tree]. rewrite lookup_cons. destruct (list_eq_dec string_dec _ _) as [X1|_]; [injection X1; intros; congruence|].
    rewrite lookup_cons. destruct (list_eq_dec string_dec _ _) as [X1|_]; [discriminate|]. apply (HN [a]). }
  assert (BASEG : lookup (f_tree (om_file s2)) ["Particles"; "ParticleSource"]%string = Some Grp) by reflexivity.
  assert (R2 : rows8 (gathered t_el d0 zs)) by (apply rows8_app; [auto|apply tot8; auto]). assert (R3 : rows8 (gathered t_po d0 zs)) by (apply rows8_app; [auto|apply tot8; auto]).
  assert (R4 : rows8 (gathered t_ph d0 zs)) by (apply rows8_app; [auto|apply tot8; auto]).
  apply wp_bind. eapply local_wp; [apply out_gathered_new; [exact R2|reflexivity|apply BASE; discriminate|exact BASEG]|].
  apply wp_bind. eapply local_wp; [apply out_gathered_new; [exact R3|reflexivity|cbn [with_file om_file f_tree]; rewrite LE by (apply NE; discriminate); apply BASE; discriminate
     |cbn [with_file om_file f_tree]; rewrite LE by apply NS; exact BASEG]|].
  eapply local_wp; [apply out_gathered_new; [exact R4|reflexivity|cbn [with_file om_file f_tree]; rewrite !LE by (apply NE; discriminate); apply BASE; discriminate
     |cbn [with_file om_file f_tree]; rewrite !LE by apply NS; exact BASEG]|].
  exact HQ.
Qed.
End Gather.
