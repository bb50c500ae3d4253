(** C104: Fourier coefficients of a density given on the points of the asymmetric unit. *)
From Coq Require Import Reals ZArith List.
From Coquelicot Require Import Complex.
From Verif Require Import Spec.Lin3 Spec.Cell Spec.Symm Spec.Scatter Spec.DensityMap Spec.Fourier Model.MatrixOps Model.UnitCell Model.Symmetry Model.StructFactor Model.MagStruct Model.Mem Model.MemFourier
  Proofs.SymmGridP Proofs.SymmExP Proofs.MagStructExP Proofs.DensMapExP Proofs.MemFourierP4.
Import ListNotations.
Open Scope list_scope.
Open Scope R_scope.

(** The coordinates used for a point of the grid are index over number of steps. *)
Theorem C104_points : forall p n i, (forall i, (0 < vget n i)%Z) -> let x := calc_symm_elem_points_by_index_points p n in
  (0 < snd x)%Z /\ IZR (vget (fst x) i) / IZR (snd x) = IZR (vget p i) / IZR (vget n i).
Proof. exact point_is. Qed.
Print Assumptions C104_points.
(** The density channel: the sum of the coefficients with the density of the asymmetric unit is the Fourier sum of the density over all
    points of the cell, times the part of the field direction perpendicular to the scattering vector, 0.2695 and volume over number of points. *)
Theorem C104_density_channel : forall n l cells pts uc, (forall i, (0 < vget n i)%Z) -> symmetry_group l -> (forall e, In e l -> grid_compatible n e) ->
  calc_asymmetric_unit_cell_indexes n l = Some cells -> is_grid n pts -> nondegenerate uc ->
  forall hkls k h q eh V N m rho plus minus density, N <> 0 -> m = None \/ m = Some (map (fun rc => INR (snd rc)) cells) ->
  nth_error hkls k = Some h -> h <> mkV 0%Z 0%Z 0%Z -> reciprocal_vector (mget (calc_m_m uc)) h q ->
  symmetric_density n l rho -> Forall2 (fun rc d => rho (fst rc) = plus * fst d + minus * snd d) cells density ->
  exists row, nth_error (fst (calc_mem_col false (mkMC None None None) hkls uc eh l (map (fun rc => calc_symm_elem_points_by_index_points (fst rc) n) cells) V N m)) k = Some row /\
    forall i, f_m_perp_col plus minus density row i = Cmult (RtoC (2695 / 10000 * V / N * perpendicular q (vget eh) i)) (fourier_sum n pts rho h).
Proof. exact density_channel. Qed.
Print Assumptions C104_density_channel.
(** The susceptibility channel: the Fourier sum over all points of the density times the part perpendicular to the scattering vector of
    the magnetisation (susceptibility of the point applied to the field), for susceptibilities with the symmetry of the group. *)
Theorem C104_chi_channel : forall n l cells pts uc, (forall i, (0 < vget n i)%Z) -> symmetry_group l -> (forall e, In e l -> grid_compatible n e) ->
  calc_asymmetric_unit_cell_indexes n l = Some cells -> is_grid n pts -> nondegenerate uc ->
  forall hkls k h q H chis V N m t rho density, N <> 0 -> m = None \/ m = Some (map (fun rc => INR (snd rc)) cells) ->
  nth_error hkls k = Some h -> h <> mkV 0%Z 0%Z 0%Z -> reciprocal_vector (mget (calc_m_m uc)) h q ->
  covariant_tensor n l (mget (calc_m_m uc)) t -> Forall2 (fun rc x => mget x = t (fst rc)) cells chis ->
  symmetric_density n l rho -> Forall2 (fun rc d => rho (fst rc) = d) cells density ->
  exists row, nth_error (fst (calc_mem_chi false (mkMC None None None) hkls uc H l (map (fun rc => calc_symm_elem_points_by_index_points (fst rc) n) cells) chis V N m)) k = Some row /\
    forall i, f_m_perp_chi density row i =
      Cmult (RtoC (2695 / 10000 * V / N)) (fourier_sum n pts (fun p => rho p * perpendicular q (applied (t p) (vget H)) i) h).
Proof. exact chi_channel. Qed.
Print Assumptions C104_chi_channel.
Example C104_met : exists cells, (forall i, (0 < vget n242 i)%Z) /\ symmetry_group p21m /\ (forall e, In e p21m -> grid_compatible n242 e) /\
  calc_asymmetric_unit_cell_indexes n242 p21m = Some cells /\ List.length cells = 8%nat /\ is_grid n242 (grid_points n242) /\ nondegenerate mono /\
  covariant_tensor n242 p21m (mget (calc_m_m mono)) (fun _ => delta) /\ symmetric_density n242 p21m (fun p => IZR (min_value n242 p21m p)) /\
  reciprocal_vector (mget (calc_m_m mono)) (mkV 1 0 2)%Z (vget (calc_q_ccs (mkV 1 0 2) mono)).
Proof. exact mem_met. Qed.
Print Assumptions C104_chi_channel.
(** Stored data: after any calls for the same cell, operations and points, with any reflections, a call gives what a first call gives. *)
Theorem C104_stored_density : forall uc full pts d, called uc full pts d -> forall use hkls eh V N m, m = None \/ m = Some (computed_mult full pts) ->
  fst (calc_mem_col use d hkls uc eh full pts V N m) = fst (calc_mem_col false (mkMC None None None) hkls uc eh full pts V N None).
Proof. exact stored_col. Qed.
Print Assumptions C104_stored_density.
Theorem C104_stored_chi : forall uc full pts d, called uc full pts d -> forall use hkls H chis V N m, m = None \/ m = Some (computed_mult full pts) ->
  fst (calc_mem_chi use d hkls uc H full pts chis V N m) = fst (calc_mem_chi false (mkMC None None None) hkls uc H full pts chis V N None).
Proof. exact stored_chi. Qed.
Print Assumptions C104_stored_chi.
(** Other points with the same reflections get the multiplicities of the points of the call before. *)
Theorem C104_other_points_refuted : forall uc, nondegenerate uc -> exists full pts1 pts2 hkls eh,
  fst (calc_mem_col true (snd (calc_mem_col true (mkMC None None None) hkls uc eh full pts1 1 1 None)) hkls uc eh full pts2 1 1 None) <>
  fst (calc_mem_col true (mkMC None None None) hkls uc eh full pts2 1 1 None).
Proof. exact stale_refuted. Qed.
Print Assumptions C104_other_points_refuted.
