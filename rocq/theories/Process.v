(** * Processes (Source/Physics/Processes) *)
From Coq Require Import ZArith List.
From Verif Require Import Num Outcome Vec Units Numerics MCTools Particle ParticleList Fields.
Import ListNotations.

Section Process.
Context {T : Type} `{Num T}.
Local Open Scope num_scope.

(** PhotonEmission.hh 37-47: the tables ([m_phEn_chiMinAxis] is only used while loading). *)
Record em_tables := mkEmT {
  h_axis : list T; h_data : list T; h_len : Z;
  ph_axis : list T; ph_chi : list (list T); ph_data : list (list T); ph_etaLen : Z; ph_chiLen : Z }.

(** NonLinearBreitWheeler.hh 27-35. *)
Record bw_tables := mkBwT {
  t_axis : list T; t_data : list T; t_len : Z;
  s_chi : list T; s_fract : list T; s_data : list (list T); s_len : Z }.

(** Process.hh 17-20, PhotonEmission.hh 32-35. *)
Record em_cfg := mkEm {
  em_field : field T; em_dt : T; em_frac : T; em_eMin : T; em_track : bool; em_tab : em_tables }.
Record bw_cfg := mkBw { bw_field : field T; bw_dt : T; bw_track : bool; bw_tab : bw_tables }.

(** PhotonEmission.cpp 23-34. *)
Definition calculate_eta (fld : field T) (p : particle T) : T :=
  let dir := get_direction p in
  let '(e, b) := fld (p_time p) (p_pos p) in
  let ePara := smul (dot e dir) dir in
  let ePerp := vsub e ePara in
  nsqrt (mag2 (vadd ePerp (smul (get_beta p) (cross dir b)))
         + npow (dot dir e) n2 / (get_gamma p * get_gamma p)) * get_gamma p.

(** NonLinearBreitWheeler.cpp 63-71. *)
Definition photon_chi (fld : field T) (p : particle T) : T :=
  let dir := get_direction p in
  let '(e, b) := fld (p_time p) (p_pos p) in
  let ePara := smul (dot e dir) dir in
  let ePerp := vsub e ePara in
  nlit 5 (-1) * get_energy p * mag (vadd ePerp (cross dir b)).

Variable E : Engine T.

(** PhotonEmission.cpp 36-48. *)
Definition calculate_chi (tab : em_tables) (eta : T) (g : est E) : res (T * est E) :=
  let '(rand, g1) := rand_double E n0 n1 g in
  let* lf := closest_points (ph_axis tab) (ph_etaLen tab) (nlog10 eta) in
  let low := fst lf in let frac := snd lf in
  let* row := get (ph_data tab) low in
  let* chis := get (ph_chi tab) low in
  let* lowValue := interpolate1d row chis (ph_chiLen tab) rand in
  let* row' := get (ph_data tab) (low + 1)%Z in
  let* chis' := get (ph_chi tab) (low + 1)%Z in
  let* highValue := interpolate1d row' chis' (ph_chiLen tab) rand in
  Ok (npow (nlit 10 0) ((n1 - frac) * lowValue + frac * highValue), g1).

(** NonLinearBreitWheeler.cpp 49-61. *)
Definition calculate_split (tab : bw_tables) (chi : T) (g : est E) : res (T * est E) :=
  let '(rand, g1) := rand_double E n0 n1 g in
  let* lf := closest_points (s_chi tab) (s_len tab) (nlog10 chi) in
  let low := fst lf in let frac := snd lf in
  let* row := get (s_data tab) low in
  let* lowValue := interpolate1d row (s_fract tab) (s_len tab) rand in
  let* row' := get (s_data tab) (low + 1)%Z in
  let* highValue := interpolate1d row' (s_fract tab) (s_len tab) rand in
  Ok ((n1 - frac) * lowValue + frac * highValue, g1).

(** StochasticEmission.cpp 32-34, ContinuousEmission.cpp 48-50. *)
Definition emission_depth (dt eta logh gamma : T) : T :=
  dt * nsqrt (nlit 3 0) * c_alpha * eta * npow (nlit 10 0) logh / (gamma * n2 * c_pi).

(** The call [Interact(part, partList)]: [part] is also an element of the list.  The
    model returns the changed particle next to the extended list; the caller stores it
    back at the particle's place ([visit] in Sim.v). *)
Definition event := plist (particle T).
Definition outcome := res (particle T * event * est E).

(** StochasticEmission.cpp 16-53. *)
Definition stochastic_interact (c : em_cfg) (p : particle T) (l : event) (g : est E) : outcome :=
  if ((p_mass p =? n0) || negb (p_alive p))%bool then Ok (p, l, g)
  else
    let eta := calculate_eta (em_field c) p in
    let* logh := (if eta <? nlit 1 (-12) then Ok (nlit 7193 (-4))
                  else interpolate1d (h_axis (em_tab c)) (h_data (em_tab c)) (h_len (em_tab c)) (nlog10 eta)) in
    let p1 := update_depth p (emission_depth (em_dt c) eta logh (get_gamma p)) in
    if p_depth p1 <? n0 then
      let* cg := calculate_chi (em_tab c) eta g in
      let gammaE := n2 * fst cg * get_gamma p1 / eta in
      let gammaP := smul gammaE (get_direction p1) in
      let p2 := update_track p1 (p_pos p1) (vsub (p_mom p1) gammaP) in
      let '(keep, g2) :=
        (if em_eMin c <? gammaE then let '(r, g2) := rand_double E n0 n1 (snd cg) in (em_frac c <? r, g2)
         else (false, snd cg)) in
      let '(l3, g3) :=
        (if keep then
           let '(ph, g3) := new_photon_energy E gammaE (p_pos p2) (get_direction p2)
                              (p_weight p2 / em_frac c) (p_time p2) (em_track c) g2 in
           (pl_add l ph, g3)
         else (l, g2)) in
      let '(p4, g4) := init_depth E p2 g3 in
      Ok (p4, l3, g4)
    else Ok (p1, l, g).

(** ContinuousEmission.cpp 21-64. *)
Definition continuous_interact (c : em_cfg) (classical : bool) (p : particle T) (l : event) (g : est E) : outcome :=
  if ((p_mass p =? n0) || negb (p_alive p))%bool then Ok (p, l, g)
  else
    let '(r, g1) := rand_double E n0 n1 g in
    if em_frac c <? r then Ok (p, l, g1)
    else
      let eta := calculate_eta (em_field c) p in
      let* lcg :=
        (if ((eta <? nlit 1 (-12)) || classical)%bool then
           let* a0 := get (h_axis (em_tab c)) 0 in
           let chiMin := nexp a0 in
           let* cg := calculate_chi (em_tab c) chiMin g1 in
           Ok (nlit 7193 (-4), fst cg * (eta / chiMin) * (eta / chiMin), snd cg)
         else
           let* logh := interpolate1d (h_axis (em_tab c)) (h_data (em_tab c)) (h_len (em_tab c)) (nlog10 eta) in
           let* cg := calculate_chi (em_tab c) eta g1 in
           Ok (logh, fst cg, snd cg)) in
      let '(logh, chi, g2) := lcg in
      let deltaOD := emission_depth (em_dt c) eta logh (get_gamma p) in
      let weight := p_weight p * deltaOD / em_frac c in
      let gammaE := n2 * chi * get_gamma p / eta in
      if em_eMin c <? gammaE then
        let '(ph, g3) := new_photon_energy E gammaE (p_pos p) (get_direction p) weight (p_time p) (em_track c) g2 in
        Ok (p, pl_add l ph, g3)
      else Ok (p, l, g2).

(** NonLinearBreitWheeler.cpp 20-47. *)
Definition breit_wheeler_interact (c : bw_cfg) (p : particle T) (l : event) (g : est E) : outcome :=
  if (match p_type p with PPhoton => false | _ => true end || negb (p_alive p))%bool then Ok (p, l, g)
  else
    let chi := photon_chi (bw_field c) p in
    let* logt := interpolate1d (t_axis (bw_tab c)) (t_data (bw_tab c)) (t_len (bw_tab c)) (nlog10 chi) in
    let deltaOD := bw_dt c * c_alpha * chi * npow (nlit 10 0) logt / get_energy p in
    let p1 := update_depth p deltaOD in
    if p_depth p1 <? n0 then
      let* sg := calculate_split (bw_tab c) chi g in
      let pEnergy := fst sg * get_energy p1 in
      let eEnergy := (n1 - fst sg) * get_energy p1 in
      let pMomentum := smul (nsqrt (pEnergy * pEnergy - n1)) (get_direction p1) in
      let eMomentum := smul (nsqrt (eEnergy * eEnergy - n1)) (get_direction p1) in
      let '(positron, g2) := new_lepton E n1 n1 (p_pos p1) pMomentum (p_weight p1) (p_time p1) (bw_track c) (snd sg) in
      let '(electron, g3) := new_lepton E n1 (nlit (-1) 0) (p_pos p1) eMomentum (p_weight p1) (p_time p1) (bw_track c) g2 in
      Ok (kill p1, pl_add (pl_add l positron) electron, g3)
    else Ok (p1, l, g).

(** Process.hh 15: the virtual [Interact]. *)
Inductive process :=
| Stochastic (c : em_cfg)
| Continuous (c : em_cfg) (classical : bool)
| BreitWheeler (c : bw_cfg).

Definition interact (pr : process) (p : particle T) (l : event) (g : est E) : outcome :=
  match pr with
  | Stochastic c => stochastic_interact c p l g
  | Continuous c cl => continuous_interact c cl p l g
  | BreitWheeler c => breit_wheeler_interact c p l g
  end.

End Process.
Arguments em_tables : clear implicits.
Arguments bw_tables : clear implicits.
Arguments em_cfg : clear implicits.
Arguments bw_cfg : clear implicits.
Arguments process : clear implicits.
Arguments event : clear implicits.
