{"id": "C01", "title": "Matrix product functions compute the textbook products", "statement": "calc_m_v, calc_q_v, calc_m1_m2, calc_m_q_mt, calc_mt_q_m, calc_mt_m, calc_q_sq, calc_q1_q2_q1, calc_m1_m2_m1t, calc_vt_m_v and calc_vt_q_v return, element by element, the index-sum definition of M v, Q v, M1 M2, M Q M^T, M^T Q M, M^T M, Q^2, Q1 Q2 Q1, M1 M2 M1^T, v^T M v, v^T Q v.", "quantifier": "all real 3x3 matrices (9 elements), all quadratic forms (6 elements), all vectors", "why_tests_cant": "an index slip in one hand-expanded term shows only for matrices with that element non-zero and non-symmetric; must hold for all matrices", "anchors": ["cryspy/A_functions_base/matrix_operations.py: calc_m_v, calc_m1_m2, calc_m_q_mt, calc_mt_q_m, calc_mt_m, calc_q_sq, calc_q1_q2_q1, calc_m1_m2_m1t, calc_vt_m_v, calc_vt_q_v, calc_q_v"]}
{"id": "C02", "title": "calc_inv_m returns the two-sided inverse", "statement": "If |det M| >= 1e-12 then calc_inv_m(M) multiplied with M on either side by calc_m1_m2 is the identity matrix; if |det M| < 1e-12 it returns the zero matrix (never raises).", "quantifier": "all real 3x3 matrices", "why_tests_cant": "infinitely many matrices incl. those at the 1e-12 boundary", "anchors": ["cryspy/A_functions_base/matrix_operations.py: calc_inv_m, calc_det_m"]}
{"id": "C03", "title": "calc_m_sq returns the matrix square", "statement": "calc_m_sq(M) equals calc_m1_m2(M, M).", "quantifier": "all real 3x3 matrices", "why_tests_cant": "one wrong term is invisible for symmetric/sparse samples", "anchors": ["cryspy/A_functions_base/matrix_operations.py: calc_m_sq"]}
{"id": "C04", "title": "Vector products: orthogonality and perpendicular projection", "statement": "calc_vector_product_v1_v2 is orthogonal to both arguments and anticommutes; calc_vector_product_v1_v2_v1(e, v) equals e x (v x e), i.e. |e|^2 v - (e.v) e, so for a unit vector e it is the component of v perpendicular to e, it is idempotent and never longer than v.", "quantifier": "all vectors v1, v2", "why_tests_cant": "universally quantified over R^3", "anchors": ["cryspy/A_functions_base/matrix_operations.py: calc_vector_product_v1_v2, calc_vector_product_v1_v2_v1, calc_vv_as_v1_v2_v1"]}
{"id": "C05", "title": "Similarity transforms M Q M^-1 and M1 M2 M1^-1", "statement": "For det M <> 0, calc_m_q_inv_m(M,Q)*M = M*Q, calc_m1_m2_inv_m1(M1,M2)*M1 = M1*M2, and both keep trace and determinant; the linear-operator forms calc_mm_as_m_q_inv_m / calc_mm_as_m1_m2_inv_m1 applied to the argument give the same result.", "quantifier": "all invertible real 3x3 matrices and all tensors", "why_tests_cant": "hand-expanded 9-element rational formulas over all invertible matrices", "anchors": ["cryspy/A_functions_base/matrix_operations.py: calc_m_q_inv_m, calc_m1_m2_inv_m1, calc_mm_as_m_q_inv_m, calc_mm_as_m1_m2_inv_m1"]}
{"id": "C06", "title": "Derivatives returned by the matrix functions are the derivatives of the value", "statement": "Whenever a matrix_operations function returns a dder entry, that entry is the partial derivative of the returned value with respect to the named argument element.", "quantifier": "all matrices/vectors, every (output element, input element) pair", "why_tests_cant": "finite-difference tests sample points only; a derivative is a limit claim at every point", "anchors": ["cryspy/A_functions_base/matrix_operations.py: calc_mt_q_m, calc_q_sq, calc_m_sq, calc_vt_m_v, calc_vt_q_v, calc_q_v, calc_m_v, calc_det_m, calc_m_q_inv_m, calc_vector_product_v1_v2_v1"]}
{"id": "C07", "title": "Metric tensor and reciprocal metric tensor are inverse; volume is consistent", "statement": "For every non-degenerate unit cell, the quadratic forms of calc_m_g and calc_m_reciprocal_g are inverse matrices of each other, det G = V^2 with V from calc_volume_uc, and V * V* = 1 with V* from calc_volume_ruc.", "quantifier": "all unit cells a,b,c>0, sines of the angles > 0, phi^2 > 0", "why_tests_cant": "real-valued continuum of cells", "anchors": ["cryspy/A_functions_base/unit_cell.py: calc_m_g_by_unit_cell_parameters, calc_m_reciprocal_g_by_unit_cell_parameters, calc_volume_uc_by_unit_cell_parameters, calc_volume_ruc_by_unit_cell_parameters"]}
{"id": "C08", "title": "Orthogonalisation matrices reproduce the metric and are inverses of each other", "statement": "M from calc_m_m satisfies M^T M = G; B from calc_m_b satisfies B^T B = G* ; calc_m_inv_m is the two-sided inverse of calc_m_m and calc_m_inv_b of calc_m_b; likewise for the normalised variants.", "quantifier": "all non-degenerate unit cells", "why_tests_cant": "trigonometric identities over a continuum of cells", "anchors": ["cryspy/A_functions_base/unit_cell.py: calc_m_m_by_unit_cell_parameters, calc_m_b_by_unit_cell_parameters, calc_m_inv_m_by_unit_cell_parameters, calc_m_inv_b_by_unit_cell_parameters and *_norm_*"]}
{"id": "C09", "title": "1/d, sin(theta)/lambda and the scattering vector agree", "statement": "calc_inv_d(hkl)^2 = hkl^T G* hkl, calc_q_ccs(hkl) has length calc_inv_d(hkl), calc_sthovl = calc_inv_d/2 and eq_ccs is q_ccs normalised to unit length.", "quantifier": "all non-degenerate unit cells and all hkl", "why_tests_cant": "two independent hand-written closed forms must agree everywhere", "anchors": ["cryspy/A_functions_base/unit_cell.py: calc_inv_d_by_unit_cell_parameters, calc_sthovl_by_unit_cell_parameters, calc_q_ccs_by_unit_cell_parameters, calc_eq_ccs_by_unit_cell_parameters"]}
{"id": "C10", "title": "Basis transformations of tensors are mutually inverse", "statement": "transform_quadratic_form_X_to_ccs followed by transform_quadratic_form_ccs_to_X (X = direct, reciprocal and the normalised bases) returns the original tensor, and the transformed tensor defines the same quadratic form on transformed vectors.", "quantifier": "all non-degenerate unit cells and all symmetric tensors", "why_tests_cant": "round-trip over a continuum", "anchors": ["cryspy/A_functions_base/unit_cell.py: transform_quadratic_form_*"]}
{"id": "C11", "title": "Derivatives with respect to unit-cell parameters", "statement": "Every dder[\"unit_cell_parameters\"] returned by unit_cell.py is the gradient of the returned value with respect to (a,b,c,alpha,beta,gamma).", "quantifier": "all non-degenerate unit cells", "why_tests_cant": "limit statement at every cell", "anchors": ["cryspy/A_functions_base/unit_cell.py: calc_volume_uc_by_unit_cell_parameters, calc_phi_sq_by_unit_cell_parameters, calc_inv_d_by_unit_cell_parameters, calc_reciprocal_by_unit_cell_parameters, calc_m_b_by_unit_cell_parameters, calc_m_m_norm_by_unit_cell_parameters"]}
{"id": "C12", "title": "sum_b_elems adds fractional translations exactly", "statement": "sum_b_elems(b1,b2) returns a fraction vector in lowest common form with numerators in [0, denominator) that is congruent to b1+b2 modulo 1 in every component.", "quantifier": "all integer numerator/denominator vectors with positive denominators", "why_tests_cant": "all integers; gcd/normalisation corner cases", "anchors": ["cryspy/A_functions_base/symmetry_elements.py: sum_b_elems"]}
{"id": "C13", "title": "sum_elem_symm_b adds fractional translations exactly", "statement": "sum_elem_symm_b(b1,b2) represents b1+b2.", "quantifier": "all integer numerator/denominator vectors with positive denominators", "why_tests_cant": "all integers", "anchors": ["cryspy/A_functions_base/symmetry_elements.py: sum_elem_symm_b"]}
{"id": "C14", "title": "Site symmetry test decides the stabiliser", "statement": "calc_symm_flags(elem, position) is true exactly when the symmetry operation maps the position onto itself modulo lattice translations.", "quantifier": "all symmetry operations with integer rotation and rational translation, all rational positions", "why_tests_cant": "quantifies over all operations and positions", "anchors": ["cryspy/A_functions_base/symmetry_elements.py: calc_symm_flags"]}
{"id": "C15", "title": "Site multiplicity is the size of the orbit", "statement": "calc_multiplicity_by_atom_symm_elems returns the number of distinct positions (modulo lattice translations) generated from the atom by the full list of symmetry operations, whenever that list is a group modulo translations.", "quantifier": "all finite operation lists closed under composition modulo lattice translations, all rational positions", "why_tests_cant": "orbit-stabiliser statement over every space group setting and position", "anchors": ["cryspy/A_functions_base/symmetry_elements.py: calc_multiplicity_by_atom_symm_elems, calc_symm_flags"]}
{"id": "C16", "title": "Asymmetric unit of the density grid covers each grid point exactly once", "statement": "calc_asymmetric_unit_cell_indexes returns representatives such that every grid point is symmetry-equivalent to exactly one representative, and the counts returned add up to na*nb*nc, each count being the size of the class.", "quantifier": "all grid sizes, all operation lists that act as a group of permutations on the grid", "why_tests_cant": "all grid sizes and groups", "anchors": ["cryspy/A_functions_base/symmetry_elements.py: calc_asymmetric_unit_cell_indexes; function_2_mem.py: calc_asymmetric_unit_cell_indexes"]}
{"id": "C17", "title": "apply_symm_elems_to_index_xyz acts on the grid", "statement": "For a grid compatible with the operation, apply_symm_elems_to_index_xyz maps grid indices to grid indices within range, is the exact image of the point under the operation modulo the cell, and is injective.", "quantifier": "all grid dimensions and operations compatible with the grid", "why_tests_cant": "all sizes", "anchors": ["cryspy/A_functions_base/symmetry_elements.py: apply_symm_elems_to_index_xyz"]}
{"id": "C18", "title": "calc_full_symm_elems_by_reduced expands reduced generators completely", "statement": "The full list has (1 or 2) * n_translations * n_reduced operations and is exactly the set of products {1, inversion} x {translations} x {reduced}: each listed operation is such a product with the right rotation and translation modulo 1, and each product occurs.", "quantifier": "all lists of reduced operations, translations, centrosymmetry flag and inversion position", "why_tests_cant": "list sizes unbounded", "anchors": ["cryspy/A_functions_base/symmetry_elements.py: calc_full_symm_elems_by_reduced, sum_b_elems"]}
{"id": "C19", "title": "calc_full_mag_elems composes operations and centring", "statement": "Each returned magnetic element is the composition of a space_group_symop_magn_operation with a space_group_symop_magn_centering element (rotation, translation modulo 1 and time reversal).", "quantifier": "all lists of magnetic operations and centrings", "why_tests_cant": "all operations", "anchors": ["cryspy/A_functions_base/symmetry_elements.py: calc_full_mag_elems, sum_elem_symm_b"]}
{"id": "C20", "title": "Equivalent reflections keep the d-spacing", "statement": "calc_equivalent_reflections(hkl, operations, centrosymmetry) returns rows h*R (and -h*R when centrosymmetric); each has the same d-spacing as hkl in every unit cell whose metric is invariant under the operations.", "quantifier": "all hkl, all operation lists, all metric tensors invariant under them", "why_tests_cant": "all reflections and groups", "anchors": ["cryspy/A_functions_base/symmetry_elements.py: calc_equivalent_reflections"]}
{"id": "C21", "title": "Symmetry-operation strings parse to the operation they denote", "statement": "transform_string_to_r_b / transform_string_to_digits applied to the string produced by transform_r_b_to_string returns the same rotation row and translation.", "quantifier": "all integer coefficients and translations n/d with d <= 10", "why_tests_cant": "unbounded set of strings and coefficients", "anchors": ["cryspy/A_functions_base/function_1_strings.py: transform_string_to_r_b, transform_string_to_digits, transform_r_b_to_string, transform_digits_to_string, transform_fraction_with_label_to_string"]}
{"id": "C22", "title": "Symmetry constraint on atom coordinates projects onto the invariant positions", "statement": "The (sc_fract, sc_b) returned by calc_sc_fract_sc_b for a site-symmetry group maps every position to a position fixed by all site operations and leaves fixed positions unchanged.", "quantifier": "all finite site-symmetry groups and all positions", "why_tests_cant": "all groups and positions", "anchors": ["cryspy/A_functions_base/symmetry_constraints.py: calc_sc_fract_sc_b"]}
{"id": "C23", "title": "Symmetry constraint on displacement tensors projects onto invariant tensors", "statement": "The 6x6 operator of calc_sc_beta maps every beta to a tensor invariant under all site operations (R beta R^T = beta) and leaves invariant tensors unchanged.", "quantifier": "all finite site-symmetry groups and all symmetric tensors", "why_tests_cant": "all groups and tensors", "anchors": ["cryspy/A_functions_base/symmetry_constraints.py: calc_sc_beta"]}
{"id": "C24", "title": "Symmetry constraint on susceptibility tensors projects onto invariant tensors", "statement": "The operators of calc_sc_chi / calc_sc_chi_full map every susceptibility tensor to one with R chi R^-1 = chi for all site operations and leave invariant tensors unchanged.", "quantifier": "all finite site-symmetry groups, all unit cells, all tensors", "why_tests_cant": "all groups and tensors", "anchors": ["cryspy/A_functions_base/symmetry_constraints.py: calc_sc_chi, calc_sc_chi_full"]}
{"id": "C25", "title": "Vibration constraints (18 Peterse-Palm cases)", "statement": "vibration_constraints(numb, values, ...) returns values satisfying the linear relations of the case, marks dependent values as constrained and not refined, keeps independent values, is idempotent, and the zero-valued ones are exactly zero.", "quantifier": "all 18 cases and all values/flags", "why_tests_cant": "all real values", "anchors": ["cryspy/A_functions_base/function_1_atomic_vibrations.py: vibration_constraints"]}
{"id": "C26", "title": "Cell constraints by Bravais type", "statement": "apply_constraint_on_cell_by_type_cell returns cell parameters obeying the metric restrictions of the Bravais type, is idempotent, and marks as constrained exactly the dependent/fixed parameters.", "quantifier": "all cells, all supported Bravais types", "why_tests_cant": "all real values", "anchors": ["cryspy/A_functions_base/function_1_atomic_vibrations.py: apply_constraint_on_cell_by_type_cell"]}
{"id": "C27", "title": "Item attributes respect limits, permitted values and current internals", "statement": "After any sequence of attribute assignments and reads of an item, every limited attribute lies in [D_MIN, D_MAX] and every enumerated attribute is one of its permitted values; an accepted value is stored, an assignment changes no other stored attribute, and an internal (computed) attribute read afterwards is the one form_object computes from the present attributes.", "quantifier": "all sequences of assignments and reads, all item classes", "why_tests_cant": "all histories", "anchors": ["cryspy/B_parent_classes/cl_1_item.py: ItemN.__setattr__, __getattr__, delete_internal_parameters, is_defined"]}
{"id": "C28", "title": "Unit cell lengths stay non-negative", "statement": "After any sequence of assignments the lengths of a Cell object are >= 0 and its angles within [0,180].", "quantifier": "all sequences of assignments to a Cell", "why_tests_cant": "all histories", "anchors": ["cryspy/C_item_loop_classes/cl_1_cell.py: Cell.D_MIN, Cell.D_MAX; cryspy/B_parent_classes/cl_1_item.py: ItemN.__setattr__"]}
{"id": "C29", "title": "Variable access by name is a lens", "statement": "get_variable_by_name returns the value last written by set_variable_by_name under the same name, writing one variable changes no other, and every name listed by get_variable_names resolves.", "quantifier": "all objects (items, loops, data, global containers) and all names", "why_tests_cant": "unbounded nesting and loops", "anchors": ["cryspy/B_parent_classes/cl_1_item.py, cl_2_loop.py, cl_3_data.py, cl_4_global.py: get_variable_names, get_variable_by_name, set_variable_by_name"]}
{"id": "C30", "title": "add_items keeps one item per name", "statement": "After any sequence of add_items / attribute assignments a container has at most one item for each name, and the item found under the name is the last one added.", "quantifier": "all sequences of additions", "why_tests_cant": "all histories", "anchors": ["cryspy/B_parent_classes/cl_3_data.py: DataN.add_items; cl_4_global.py: GlobalN.add_items, __setattr__"]}
{"id": "C31", "title": "Numbers with error and mark survive printing and parsing", "statement": "string_to_value_error_mark(value_error_mark_to_string(v, e, m)) returns the mark m, the value to the printed precision and the error to two significant digits.", "quantifier": "all values, errors and marks", "why_tests_cant": "all decimal strings", "anchors": ["cryspy/A_functions_base/function_1_strings.py: string_to_value_error_mark, value_error_mark_to_string"]}
{"id": "C32", "title": "Structure factor obeys the symmetry phase relation", "statement": "For every operation (R,t) of a group of operations modulo lattice translations, the nuclear structure factor satisfies F(hR) = F(h) * exp(+2 pi i h.t) in the code's convention F(h) = sum exp(-2 pi i h.x) (isotropic displacement), so symmetry-equivalent reflections have equal |F| and reflections with hR = h and h.t not an integer are absent.", "quantifier": "all groups, all atoms lists, all integer hkl", "why_tests_cant": "all groups/atoms/reflections", "anchors": ["cryspy/A_functions_base/structure_factor.py: calc_f_nucl, calc_pr1, calc_pr2, calc_f_asym_a_by_pr, calc_f_by_f_asym_a_pr"]}
{"id": "C33", "title": "Reduced-operations evaluation equals the full sum", "statement": "calc_f_by_f_asym_a_pr applied to reduced operations + centring translations + inversion centre equals the explicit sum over calc_full_symm_elems_by_reduced.", "quantifier": "all lists of operations, translations, inversion positions, all atoms", "why_tests_cant": "all sizes", "anchors": ["cryspy/A_functions_base/structure_factor.py: calc_f_by_f_asym_a_pr, calc_pr3, calc_pr4; symmetry_elements.py: calc_full_symm_elems_by_reduced"]}
{"id": "C34", "title": "Centrosymmetric structures with inversion at the origin have real structure factors; absent reflections vanish", "statement": "With the inversion centre at the origin and real scattering lengths F is real; if the centring sum is zero F is zero.", "quantifier": "all structures and reflections", "why_tests_cant": "all structures", "anchors": ["cryspy/A_functions_base/structure_factor.py: calc_f_by_f_asym_a_pr, calc_pr3, calc_pr4"]}
{"id": "C35", "title": "Anisotropic Debye-Waller factor follows the rotated atom", "statement": "The displacement factor multiplying the contribution of operation (R,t) is exp(-h^T R beta R^T h).", "quantifier": "all operations, tensors and reflections", "why_tests_cant": "all inputs", "anchors": ["cryspy/A_functions_base/structure_factor.py: calc_f_nucl (call of calc_dwf); debye_waller_factor.py: calc_power_dwf_aniso, calc_dwf"]}
{"id": "C36", "title": "Cached evaluation equals fresh evaluation", "statement": "Calling calc_f_nucl with flag_use_precalculated_data after any history of parameter changes announced through the flags returns the same value as a fresh evaluation.", "quantifier": "all histories of parameter changes and calls", "why_tests_cant": "all histories", "anchors": ["cryspy/A_functions_base/structure_factor.py: calc_f_nucl"]}
{"id": "C37", "title": "hkl lists: each equivalence class once, multiplicity is its size, sorted, in range", "statement": "calc_index_hkl_multiplicity_in_range returns reflections within the sin(theta)/lambda range, sorted by it, exactly one per class of symmetry-equivalent reflections, not extinct by centring, with multiplicity the size of the class.", "quantifier": "all cells, groups and ranges", "why_tests_cant": "all ranges and groups", "anchors": ["cryspy/A_functions_base/structure_factor.py: calc_index_hkl_multiplicity_in_range"]}
{"id": "C38", "title": "Integrated intensities are non-negative", "statement": "calc_iint returns I+ >= 0 and I- >= 0 for beam polarisation and flipper efficiency in their physical range and unit polarisation axis (no extinction correction).", "quantifier": "all structure factors, polarisations, axes", "why_tests_cant": "continuum", "anchors": ["cryspy/A_functions_base/flip_ratio.py: calc_iint"]}
{"id": "C39", "title": "Flipping symmetries of integrated intensities", "statement": "With flipper efficiency 1, I-(p) = I+(-p); with zero polarisation or zero magnetic structure factor I+ = I-; the flip ratio is then 1 and asymmetry 0; asymmetry = (R-1)/(R+1).", "quantifier": "all inputs", "why_tests_cant": "continuum", "anchors": ["cryspy/A_functions_base/flip_ratio.py: calc_iint, calc_flip_ratio_by_iint, calc_asymmetry_by_iint"]}
{"id": "C40", "title": "Intensity derivatives", "statement": "All dder entries returned by calc_iint, calc_flip_ratio_by_iint and calc_asymmetry_by_iint are the partial derivatives of the returned values.", "quantifier": "all inputs in the domain", "why_tests_cant": "limit statement", "anchors": ["cryspy/A_functions_base/flip_ratio.py: calc_iint, calc_flip_ratio_by_iint, calc_asymmetry_by_iint"]}
{"id": "C41", "title": "Powder intensity is the orientation average of single-crystal intensity", "statement": "calc_powder_iint_1d_para / 2d_para / *_ordered / *_mix return the average, over rotation about the scattering vector, of the single-crystal intensity with M_perp = sigma H (+ ordered moment).", "quantifier": "all structure-factor tensors, fields, polarisations, angles", "why_tests_cant": "continuum + integral", "anchors": ["cryspy/A_functions_base/integrated_intensity_powder_diffraction.py"]}
{"id": "C42", "title": "2D powder formulas reduce to the 1D ones at alpha = 90 degrees", "statement": "calc_powder_iint_2d_*(\u2026, alpha=pi/2) = calc_powder_iint_1d_*(\u2026).", "quantifier": "all inputs", "why_tests_cant": "continuum", "anchors": ["cryspy/A_functions_base/integrated_intensity_powder_diffraction.py"]}
{"id": "C43", "title": "Derivatives of the powder intensity terms", "statement": "All dder entries of the term functions in integrated_intensity_powder_diffraction.py are the partial derivatives of the returned terms.", "quantifier": "all inputs", "why_tests_cant": "limit statement", "anchors": ["cryspy/A_functions_base/integrated_intensity_powder_diffraction.py"]}
{"id": "C44", "title": "Peak-shape functions are normalised peaks and eta is a valid mixing parameter", "statement": "The pseudo-Voigt total is positive, symmetric about the peak, maximal at the peak, has value half at half width, 0 <= eta <= 1, and h_pv is between max(h_g,h_l) and h_g+h_l.", "quantifier": "all positive widths and positions", "why_tests_cant": "continuum", "anchors": ["cryspy/A_functions_base/powder_diffraction_const_wavelength.py: func_gauss_by_h_pv, func_lorentz_by_h_pv, calc_h_pv, calc_eta, calc_profile_pseudo_voight"]}
{"id": "C45", "title": "Derivatives of profile, Lorentz and asymmetry functions", "statement": "All dder entries of the profile functions are the derivatives of the returned value.", "quantifier": "all inputs in the domain", "why_tests_cant": "limit statement", "anchors": ["cryspy/A_functions_base/powder_diffraction_const_wavelength.py"]}
{"id": "C46", "title": "gamma/nu and 2theta/phi conversions are inverse", "statement": "calc_ttheta_phi_by_gamma_nu(calc_gamma_nu_by_ttheta_phi(t,p)) = (t,p) on the physical domain, and both describe the same direction of the scattered beam.", "quantifier": "all angles in the domain", "why_tests_cant": "continuum", "anchors": ["cryspy/A_functions_base/powder_diffraction_const_wavelength.py: calc_gamma_nu_by_ttheta_phi, calc_ttheta_phi_by_gamma_nu"]}
{"id": "C47", "title": "Extinction factors are physical", "statement": "calc_extinction_sphere_primary / secondary_* return values in (0,1], equal to 1 for zero radius, and decreasing intensity with |F|^2.", "quantifier": "all |F|^2 >= 0 and physical parameters", "why_tests_cant": "continuum", "anchors": ["cryspy/A_functions_base/extinction.py"]}
{"id": "C48", "title": "Extinction derivatives", "statement": "All dder entries of the extinction functions are the derivatives of the returned value.", "quantifier": "all inputs in the domain", "why_tests_cant": "limit statement", "anchors": ["cryspy/A_functions_base/extinction.py"]}
{"id": "C49", "title": "Displacement parameter conversions are inverse", "statement": "calc_u_ij_by_beta(calc_beta_by_u_ij(U)) = U and calc_param_iso_aniso_by_b_iso_beta(calc_b_iso_beta(..)) returns the parameters of each atom.", "quantifier": "all non-degenerate cells, all tensors, all ADP types", "why_tests_cant": "continuum", "anchors": ["cryspy/A_functions_base/debye_waller_factor.py"]}
{"id": "C50", "title": "March-Dollase texture factor", "statement": "calc_preferred_orientation_pd returns 1 for g_1 = 1, is positive for positive parameters, is a convex combination by g_2, and its derivatives are right.", "quantifier": "all parameters", "why_tests_cant": "continuum", "anchors": ["cryspy/A_functions_base/preferred_orientation.py"]}
{"id": "C51", "title": "Hamilton constraint step satisfies the constraints", "statement": "Adding the shift of calc_shift_p_by_constraints_hamilton to an unconstrained least-squares step gives a step satisfying all linear constraints exactly.", "quantifier": "all constraint matrices of full row rank, all Hessians, any number of parameters", "why_tests_cant": "unbounded dimensions", "anchors": ["cryspy/procedure_rhochi/rhochi_by_dictionary.py: calc_shift_p_by_constraints_hamilton, form_matrix_q"]}
{"id": "C52", "title": "The least-squares loop never returns a worse point and stays consistent", "statement": "rhochi_lsq_by_dictionary returns chi-square not larger than at the start and leaves the dictionary holding exactly the parameters with the returned chi-square.", "quantifier": "all chi-square functions, all step directions, any number of iterations", "why_tests_cant": "all histories", "anchors": ["cryspy/procedure_rhochi/rhochi_by_dictionary.py: rhochi_lsq_by_dictionary, rhochi_one_iteration_by_dictionary"]}
{"id": "C53", "title": "Linear constraints hold at every evaluation of the refinement", "statement": "During rhochi_rietveld_refinement_by_dictionary, at each evaluation of chi-square the parameter tied by a linear constraint satisfies coef1*p1 + coef2*p2 = 0.", "quantifier": "all constraints with two parameters, all simplex points", "why_tests_cant": "all evaluation histories", "anchors": ["cryspy/procedure_rhochi/rhochi_by_dictionary.py: rhochi_rietveld_refinement_by_dictionary.tempfunc"]}
{"id": "C54", "title": "Excluded points do not influence chi-square", "statement": "Changing measured intensity or sigma of excluded points leaves chi_sq and the number of points unchanged.", "quantifier": "all profiles and masks", "why_tests_cant": "all data arrays", "anchors": ["cryspy/procedure_rhochi/rhochi_pd.py, rhochi_diffrn.py"]}
{"id": "C55", "title": "Background is piecewise linear through the given points", "statement": "calc_background returns background_intensity at each background point, linear interpolation in between, linear continuation outside, and its derivative with respect to intensities is the interpolation weight.", "quantifier": "all sorted background tables with at least two points, all 2theta", "why_tests_cant": "continuum", "anchors": ["cryspy/procedure_rhochi/rhochi_pd.py: calc_background"]}
{"id": "C56", "title": "Total chi-square, gradient and Hessian are assembled from experiments", "statement": "rhochi_calc_chi_sq_by_dictionary returns the sum of chi-squares and point numbers and accumulates first/second derivatives at the right parameter positions.", "quantifier": "any number of experiments and parameters", "why_tests_cant": "unbounded lists", "anchors": ["cryspy/procedure_rhochi/rhochi_by_dictionary.py: rhochi_calc_chi_sq_by_dictionary"]}
{"id": "C57", "title": "MEM density normalisation", "statement": "renormailize_density_col/chi return densities whose integral over the cell is one (per atom for chi), non-negative input stays non-negative, and normalisation is idempotent.", "quantifier": "all grids and densities with positive integral", "why_tests_cant": "unbounded arrays", "anchors": ["cryspy/A_functions_base/mempy.py: renormailize_density_col, renormailize_density_chi"]}
{"id": "C58", "title": "MEM basins assign a consistent (atom, operation) pair", "statement": "calc_index_atom_symmetry_closest_to_fract_xyz returns for each point an atom and a symmetry operation whose image attains the minimal distance.", "quantifier": "all points, atoms and operations", "why_tests_cant": "all configurations incl. ties", "anchors": ["cryspy/A_functions_base/mempy.py: calc_index_atom_symmetry_closest_to_fract_xyz"]}
{"id": "C59", "title": "Space-group name tables are consistent", "statement": "Lookups number <-> Hermann-Mauguin/Schoenflies/Hall names are mutually inverse, the crystal system ranges partition 1..230 and the default coordinate code is an accessible code.", "quantifier": "all 230 space-group numbers and all table names", "why_tests_cant": "whole table", "anchors": ["cryspy/A_functions_base/function_2_space_group.py"]}
{"id": "C60", "title": "Hessian and correlation matrix", "statement": "InversedHessian: set_inversed_hessian gives a symmetric correlation matrix with unit diagonal, sigma^2 equal to the diagonal, and the inverse Hessian is recovered from correlation and sigma.", "quantifier": "all symmetric positive matrices of any size", "why_tests_cant": "unbounded size", "anchors": ["cryspy/C_item_loop_classes/cl_1_inversed_hessian.py"]}
{"id": "C61", "title": "Magnetic form factor", "statement": "calc_form_factor at sthovl=0 equals 1 when the j0 coefficients add to one, j2 vanishes at 0, and derivatives are right.", "quantifier": "all coefficients, kappa > 0", "why_tests_cant": "continuum", "anchors": ["cryspy/A_functions_base/magnetic_form_factor.py"]}
{"id": "C62", "title": "calc_matrix_t is the rotation to the scattering-vector frame", "statement": "For every non-zero reflection calc_matrix_t returns a proper rotation matrix whose third row is the unit scattering vector (within 1e-5 in the numerical window near ky = 0, exactly outside it), and never aborts the program; for hkl = 000 it quits.", "quantifier": "all non-degenerate cells, all non-zero hkl", "why_tests_cant": "continuum of cells and branch structure of arcsin/arccos", "anchors": ["cryspy/A_functions_base/unit_cell.py: calc_matrix_t"]}
{"id": "C63", "title": "Refinement flags of coordinates that symmetry allows to move are kept", "statement": "After the site-symmetry constraints are applied, a fractional coordinate flagged for refinement that can move under the constraint is still flagged for refinement.", "quantifier": "all site-symmetry groups, all flag combinations", "why_tests_cant": "all groups", "anchors": ["cryspy/E_data_classes/cl_1_crystal.py: Crystal.get_dictionary (flags_atom_fract_xyz)"]}
{"id": "C64", "title": "The displacement-tensor case is chosen according to the site symmetry", "statement": "AtomSite.calc_constr_number returns the Peterse-Palm case whose constraint makes every tensor invariant under the site symmetry of the atom.", "quantifier": "all site symmetries", "why_tests_cant": "all groups", "anchors": ["cryspy/C_item_loop_classes/cl_1_atom_site.py: AtomSite.calc_constr_number; cl_1_atom_site_aniso.py: AtomSiteAniso.apply_space_group_constraint"]}
{"id": "C65", "title": "The refinement leaves the optimal parameters in the dictionary", "statement": "After rhochi_rietveld_refinement_by_dictionary the dictionary holds the parameters of the best point found by the minimiser and the returned chi-square is that of this point.", "quantifier": "all minimisers (sequences of evaluations), all chi-square functions, all constraints", "why_tests_cant": "the sequence of evaluations is chosen by scipy", "anchors": ["cryspy/procedure_rhochi/rhochi_by_dictionary.py: rhochi_rietveld_refinement_by_dictionary"]}
{"id": "C66", "title": "Reported parameter errors are standard uncertainties", "statement": "The error reported for a refined parameter is the shift of this parameter which, with the other parameters re-optimised, raises chi-square by one.", "quantifier": "all quadratic chi-square functions of any number of parameters", "why_tests_cant": "any number of parameters", "anchors": ["cryspy/procedure_rhochi/rhochi.py: rhochi_inversed_hessian; cryspy/A_functions_base/function_1_inversed_hessian.py: estimate_inversed_hessian_matrix; cryspy/C_item_loop_classes/cl_1_inversed_hessian.py: inversed_hessian_to_correlation"]}
{"id": "C67", "title": "Cell parameters obey the restrictions of the cell type", "statement": "Once a cell type is given, the six parameters of a Cell object obey its restrictions (a = b, 90 or 120 degrees, ...) whenever they are read, in particular after an assignment to one of them.", "quantifier": "all sequences of assignments to a Cell", "why_tests_cant": "all histories", "anchors": ["cryspy/C_item_loop_classes/cl_1_cell.py: Cell.form_object, Cell.apply_constraints; cryspy/B_parent_classes/cl_1_item.py: ItemN.__setattr__, __getattr__"]}
{"id": "C68", "title": "Every offered space-group setting builds a group, the one its Hall symbol names", "statement": "SpaceGroup(it_number=n, it_coordinate_system_code=c) can be built for every number and every code offered for it; the operations of full_space_group_symop form a group without repetitions modulo lattice translations; for the number alone they are exactly the group generated by the Hall symbol the object reports; and the crystal dictionary holds the same operations in its full and in its reduced form.", "quantifier": "all 230 numbers and all codes offered (802 settings)", "why_tests_cant": "one table of strings behind a parser and transformations; a test looks at a few groups", "anchors": ["cryspy/A_functions_base/function_2_space_group.py: get_symop_pcentr_multiplicity_letter_site_symmetry_coords_xyz_2, transform_symop_operation_xyz_by_pp_abc; cryspy/C_item_loop_classes/cl_2_space_group.py: SpaceGroup.form_object; itables.txt, wyckoff.dat; cryspy/E_data_classes/cl_1_crystal.py: Crystal.get_dictionary"]}
{"id": "C69", "title": "Settings of one space group are the same group in other axes", "statement": "The operations of every setting are those of the standard setting after the change of axes that the code of the setting says and a shift of the origin.", "quantifier": "all offered settings", "why_tests_cant": "for all pairs of settings and all points", "anchors": ["cryspy/A_functions_base/function_2_space_group.py: get_transform_pp_abc_choice_by_it_number_it_coordinate_system_code, get_symop_pcentr_multiplicity_letter_site_symmetry_coords_xyz_2"]}
{"id": "C70", "title": "Wyckoff positions are orbits", "statement": "For every setting and every listed Wyckoff position: for all parameters x, y, z the listed points are one orbit of the group, the expressions are different and as many as the multiplicity; the coordinate strings shown to the user (full_coord_xyz) say the same as the numbers used.", "quantifier": "all settings, all positions, all parameters", "why_tests_cant": "continuum of parameters", "anchors": ["cryspy/C_item_loop_classes/cl_1_space_group_wyckoff.py: SpaceGroupWyckoff.form_object; cryspy/A_functions_base/wyckoff.dat"]}
{"id": "C71", "title": "The multiplicity given to an atom is the number of its equivalent points", "statement": "AtomSite.apply_constraints finds for every atom a Wyckoff position; its multiplicity is the smallest of the positions the atom is on, and not less than the number of equivalent points; after the atom is moved the position is determined anew.", "quantifier": "all settings, all rational coordinates with denominators up to 99999", "why_tests_cant": "continuum of coordinates", "anchors": ["cryspy/C_item_loop_classes/cl_1_atom_site.py: AtomSite.apply_constraints; cl_1_space_group_wyckoff.py: is_valid_for_fract, get_id_for_fract; cryspy/A_functions_base/function_2_space_group.py: is_good_for_mask, is_solution_a_b"]}
{"id": "C72", "title": "The constrained cell has the symmetry of the space group", "statement": "After the cell constraints of the Bravais type of the space group are applied, every operation of the group leaves the metric of the cell unchanged.", "quantifier": "all settings, all cell parameters", "why_tests_cant": "continuum of cells", "anchors": ["cryspy/C_item_loop_classes/cl_1_cell.py: Cell.apply_constraints; cl_2_space_group.py: bravais_type; cryspy/A_functions_base/function_2_crystallography_base / unit cell constraints"]}
{"id": "C73", "title": "Constraining the coordinates of an atom does not move it to another place", "statement": "After AtomSite.apply_constraints the coordinates are those of a point equivalent to the old one, on the first expression of its Wyckoff position, and the coordinates without a constraint flag are exactly the free parameters of this expression.", "quantifier": "all settings, all rational coordinates", "why_tests_cant": "continuum of coordinates", "anchors": ["cryspy/C_item_loop_classes/cl_1_space_group_wyckoff.py: give_default_xyz; cl_1_atom_site.py: AtomSite.form_object"]}
{"id": "C74", "title": "The text of an item is CIF and holds its attributes", "statement": "item.to_cif() is a text of the CIF grammar whose contents are exactly the defined attributes, in order, each under prefix + separator + CIF name and with its value.", "quantifier": "all item classes with fixed attributes, all items, both separators", "why_tests_cant": "all values of attributes", "anchors": ["cryspy/B_parent_classes/cl_1_item.py: ItemN.to_cif, ItemN.__getattr__ (_as_string)"]}
{"id": "C75", "title": "An item survives being written and read", "statement": "cls.from_cif(item.to_cif()) holds the same data as item: values, and errors, refinement flags and marks of refined parameters.", "quantifier": "all item classes with fixed attributes, all items", "why_tests_cant": "all values", "anchors": ["cryspy/B_parent_classes/cl_1_item.py: ItemN.to_cif, ItemN.from_cif; cryspy/A_functions_base/function_1_strings.py: string_to_value_error_mark, value_error_mark_to_string"]}
{"id": "C76", "title": "A loop survives being written and read", "statement": "loop.to_cif() is a CIF text with one loop, a column for each attribute and a row for each item; cls.from_cif of it gives the same number of items, in the same order, with the same data, and the loop name.", "quantifier": "all loops of any number of items of a class with fixed attributes", "why_tests_cant": "any number of items", "anchors": ["cryspy/B_parent_classes/cl_2_loop.py: LoopN.to_cif, LoopN.from_cif"]}
{"id": "C77", "title": "The text of a data block or file holds all its parts once", "statement": "data.to_cif() and global.to_cif() are CIF texts: the heading and then the contents of every item, loop and data block exactly once.", "quantifier": "all lists of items, loops and data blocks, of any sizes", "why_tests_cant": "any number of parts and any lengths (the order depends on the lengths)", "anchors": ["cryspy/B_parent_classes/cl_3_data.py: DataN.to_cif; cl_4_global.py: GlobalN.to_cif"]}
{"id": "C78", "title": "The prefix of a generic item or loop", "statement": "For a generic item or loop read from a file the prefix found is a beginning of every name, ends in front of a separator or is a whole name, and the attribute names are the rests.", "quantifier": "all lists of names", "why_tests_cant": "any number and length of names", "anchors": ["cryspy/A_functions_base/function_1_strings.py: find_prefix, common_string; cryspy/B_parent_classes/cl_2_loop.py: LoopN.from_cif"]}
{"id": "C79", "title": "Magnetic structure-factor tensors are those of the ions of the cell, and have the symmetry of the crystal", "statement": "calc_sft_ccs gives for each reflection the sum over the magnetic ions of one cell of amplitude, susceptibility tensor of the ion and phase; A T(hR) = exp(2 pi i h.t) T(h) A for every operation (R, t) with Cartesian matrix A; the tensor is symmetric; T(-h) is the conjugate of T(h); it vanishes for reflections forbidden by the centring; the reduced and the full list of operations give the same.", "quantifier": "all crystals with isotropic displacement, all susceptibility tensors, all reflections", "why_tests_cant": "continuum of positions, tensors and cells; all groups", "anchors": ["cryspy/A_functions_base/structure_factor.py: calc_sft_ccs, calc_sft_ccs_asym_a_by_pr, calc_t_by_t_asym; cryspy/A_functions_base/unit_cell.py: calc_m_m"]}
{"id": "C80", "title": "The magnetic interaction vector is the part of the magnetic structure factor perpendicular to the scattering vector", "statement": "calc_f_m_perp_by_sft returns T H minus its component along q, is perpendicular to q and linear in the field; for equivalent reflections in equivalent fields it is the same vector up to rotation and phase, so its modulus is equal.", "quantifier": "all tensors, fields and scattering vectors; all operations", "why_tests_cant": "continuum of fields and directions", "anchors": ["cryspy/A_functions_base/structure_factor.py: calc_f_m_perp_by_sft"]}
{"id": "C81", "title": "Stored data never change the magnetic structure factors", "statement": "A sequence of calls of calc_sft_ccs on one dict_in_out, with the flags of everything that changed set, gives the tensors that calls without stored data give.", "quantifier": "all sequences of calls", "why_tests_cant": "all histories", "anchors": ["cryspy/A_functions_base/structure_factor.py: calc_sft_ccs, calc_sft_ccs_by_dictionary"]}
{"id": "C82", "title": "Reported derivatives of the magnetic structure factor are derivatives", "statement": "The derivative over an element of the susceptibility which calc_sft_ccs reports is the derivative of the tensor over this element.", "quantifier": "all crystals, reflections, atoms and elements", "why_tests_cant": "a derivative is a limit; continuum of points", "anchors": ["cryspy/A_functions_base/structure_factor.py: calc_sft_ccs (dder), calc_sft_ccs_asym_a_by_pr, calc_t_by_t_asym; matrix_operations.py: calc_m_q_inv_m"]}
{"id": "C83", "title": "Ordered moments: the structure factor is that of the moments of the magnetic cell", "statement": "calc_f_m_perp_ordered sums over the positions generated by the magnetic group, the moment at each being theta det(R) R m (axial vector, reversed with time), with form factor, occupancy, displacement factor and phase, and returns the part perpendicular to the scattering vector.", "quantifier": "all magnetic groups, moments, positions, cells, reflections", "why_tests_cant": "continuum of moments and positions; all groups", "anchors": ["cryspy/A_functions_base/structure_factor.py: calc_f_m_perp_ordered; unit_cell.py: calc_m_m_norm"]}
{"id": "C84", "title": "The bulk susceptibility is the sum over the cell and has the symmetry of the crystal", "statement": "calc_bulk_susceptibility returns the sum of the occupancy-weighted tensors of the ions of one cell, and this tensor commutes with every operation of the group.", "quantifier": "all crystals", "why_tests_cant": "continuum of tensors; all groups", "anchors": ["cryspy/A_functions_base/structure_factor.py: calc_bulk_susceptibility_by_dictionary, calc_bulk_susceptibility"]}
{"id": "C85", "title": "Time of flight and interplanar distance are inverse to each other", "statement": "The distance computed for the time of a reflection is the distance of this reflection; any distance returned has the time asked for; the range of distances computed from the measured times contains exactly the reflections whose times lie in the measured range, for thermal and epithermal neutrons.", "quantifier": "all instrument constants, all times and distances on the branch where time grows with distance", "why_tests_cant": "continuum of constants and times", "anchors": ["cryspy/A_functions_base/powder_diffraction_tof.py: calc_time_for_thermal_neutrons_by_d, calc_d_by_time_for_thermal_neutrons, calc_d_min_max_by_time_thermal_neutrons, calc_time_for_epithermal_neutrons_by_d, calc_d_min_max_by_time_epithermal_neutrons"]}
{"id": "C86", "title": "Peak functions have area one and the shape their names say", "statement": "The time-of-flight peak is the convolution of two back-to-back exponentials with a normal distribution, is positive and has area one; so have the Gaussian, Lorentzian and pseudo-Voigt peaks of the constant-wavelength code; the implementations agree on width and mixing for the same widths.", "quantifier": "all positive shape parameters, all times/angles", "why_tests_cant": "improper integrals of transcendental functions over a continuum of parameters", "anchors": ["cryspy/A_functions_base/powder_diffraction_tof.py: tof_Jorgensen, tof_Jorgensen_VonDreele, calc_hpv_eta, calc_y_z_u_v", "cryspy/A_functions_base/powder_diffraction_tof_zcode.py", "cryspy/A_functions_base/powder_diffraction_const_wavelength.py: func_gauss_by_h_pv, func_lorentz_by_h_pv"]}
{"id": "C87", "title": "Root finding returns the zeros of the function, each once", "statement": "calc_roots ends, every value it returns is a zero of the function in the interval within 1e-12, every zero (not closer to another than eps) is returned, and once.", "quantifier": "all continuous functions, intervals and steps", "why_tests_cant": "all continuous functions; termination", "anchors": ["cryspy/A_functions_base/function_1_roots.py: rootsearch, bisect, calc_roots"]}
{"id": "C88", "title": "Regridding a 2D pattern is bilinear interpolation in the other angles", "statement": "recal_int_to_gammanu_grid and recal_int_to_tthphi_grid return, for every cell of the new grid, the bilinear interpolation of the measured matrix at the same direction of the scattered beam: exact on bilinear functions and at the nodes, between the extremes of the matrix, additive, none outside.", "quantifier": "all grids, matrices and directions", "why_tests_cant": "continuum of values and directions; all sizes", "anchors": ["cryspy/A_functions_base/function_1_gamma_nu.py: recal_int_to_gammanu_grid, recal_int_to_tthphi_grid, app_grid, app_2d"]}
{"id": "C89", "title": "The magnetization ellipsoid is the set of moments induced by unit fields", "statement": "The U_ij, axes, eigen-fields, moments and ellipsoid factor reported for a susceptibility tensor describe the moments it induces: U on any direction is the squared induced moment, the drawn surface is the image of the unit sphere, the reported moments are the principal susceptibilities, and the factor of a tensor lies between -1 and 1.", "quantifier": "all symmetric tensors, all unit cells, all field directions", "why_tests_cant": "continuum of tensors, cells and directions; every result numpy.linalg.eigh may return", "anchors": ["cryspy/A_functions_base/local_susceptibility.py: calc_magnetization_ellipsoid_as_u, calc_magnetization_ellipsoid_axes, calc_ellipsoid_factor", "cryspy/C_item_loop_classes/cl_1_atom_site_susceptibility.py: calc_main_axes_of_magnetization_ellipsoid"]}
{"id": "C90", "title": "An isotropic susceptibility has one free number", "statement": "apply_chi_iso_constraint on an atom of type Ciso gives a multiple of the unit tensor, invariant under every rotation, with only chi_11 free; other types are untouched; applying it twice changes nothing more.", "quantifier": "all atoms, tensors, flags and type strings", "why_tests_cant": "all values and all strings of the type", "anchors": ["cryspy/C_item_loop_classes/cl_1_atom_site_susceptibility.py: apply_chi_iso_constraint"]}
{"id": "C91", "title": "The site symmetry of an atom is the set of operations that leave it in place", "statement": "For a position in the cell, SpaceGroup.calc_el_symm_for_xyz (calc_symop_for_xyz) returns, without an error, exactly the operations of the group that map the position to itself up to a lattice translation; they form a group.", "quantifier": "all operation lists and all positions", "why_tests_cant": "continuum of positions, all groups; the answer depends on rounding of the images", "anchors": ["cryspy/C_item_loop_classes/cl_2_space_group.py: calc_el_symm_for_xyz, calc_symop_for_xyz", "cryspy/C_item_loop_classes/cl_1_atom_site.py: calc_sc_chi"]}
{"id": "C92", "title": "Constraining a susceptibility to its site keeps what the symmetry allows and nothing else", "statement": "apply_space_group_constraint leaves a tensor that has the symmetry of the site unchanged, turns any other into one that has it, marks as constrained exactly the elements that follow from the others, keeps value, uncertainty and flag of the free ones, and leaves atoms of other types and in general positions alone.", "quantifier": "all sites (groups, cells, positions), all tensors, uncertainties and flags", "why_tests_cant": "continuum of tensors and cells; all site groups", "anchors": ["cryspy/C_item_loop_classes/cl_1_atom_site_susceptibility.py: apply_space_group_constraint, calc_constr_matrix, calc_independent_lines", "cryspy/C_item_loop_classes/cl_1_atom_site.py: calc_sc_chi", "cryspy/A_functions_base/symmetry_constraints.py: calc_sc_chi"]}
{"id": "C93", "title": "Rotation matrices and Euler angles describe the same rotation", "statement": "The matrix of three Euler angles is a rotation, by the angles about x, y, z in turn; the angles reported for any rotation matrix give it back; the matrix about an axis turns about it by the angle; the matrix of two vectors turns the named axes to them; the angle between two vectors is the geometrical one.", "quantifier": "all angles, rotation matrices and vectors", "why_tests_cant": "continuum of rotations, including the singular ones", "anchors": ["cryspy/A_functions_base/function_1_matrices.py: calc_rotation_matrix_ij_by_euler_angles, calc_euler_angles_by_rotation_matrix_ij, calc_rotation_matrix_ij_around_axis, calc_rotation_matrix_by_two_vectors, calc_vector_angle"]}
{"id": "C94", "title": "Products, determinants and inverses of lists of matrix elements", "statement": "calc_product_matrices of any number of matrices acts as its factors one after another, calc_mRmCmRT is R C R^T, the determinant is the determinant and the inverse is the inverse of every invertible matrix.", "quantifier": "all matrices, any number of factors", "why_tests_cant": "continuum of matrices; any number of arguments", "anchors": ["cryspy/A_functions_base/function_1_matrices.py: calc_product_matrices, calc_mRmCmRT, calc_product_matrix_vector, calc_determinant_matrix_ij, calc_inverse_matrix_ij"]}
{"id": "C95", "title": "Interpolation in a periodic map", "statement": "tri_linear_interpolation returns the values of the map at the grid points, is tri-linear between them, periodic with the cell, continuous across grid cells, between the extremes of the map, and exact for affine maps.", "quantifier": "all maps, grid sizes and points", "why_tests_cant": "all sizes, continuum of points", "anchors": ["cryspy/A_functions_base/function_1_matrices.py: tri_linear_interpolation"]}
{"id": "C96", "title": "The orientation matrix determines cell and orientation", "statement": "For an invertible UB matrix the unit cell reported is the one whose reciprocal axes are its columns, U B is UB in the CCSL frame, U keeps lengths and angles; the vertical direction and the q2 reported are those of the crystal in that orientation; conversion to the CCSL frame and back is the identity for every accepted convention.", "quantifier": "all invertible UB matrices, conventions and goniometer angles", "why_tests_cant": "continuum of matrices and angles", "anchors": ["cryspy/C_item_loop_classes/cl_2_diffrn_orient_matrix.py: DiffrnOrientMatrix.form_object, calc_ub_ccsl, calc_matrix_from_ccsl, calc_ub, calc_e_up, calc_q2"]}
{"id": "C97", "title": "Reported setting angles bring the reflection into diffraction", "statement": "calc_angle returns gamma, nu, phi such that turning the crystal by phi puts the reflection on the Ewald sphere with the scattered beam in the direction (gamma, nu), for every convention of senses; and no angles exactly when no turn does it.", "quantifier": "all orientations, reflections, wavelengths and conventions", "why_tests_cant": "continuum of orientations", "anchors": ["cryspy/C_item_loop_classes/cl_2_diffrn_orient_matrix.py: DiffrnOrientMatrix.calc_angle"]}
{"id": "C98", "title": "The Cell object agrees with the functions on unit-cell parameters", "statement": "Volume, metric, reciprocal cell, B and M matrices, sin(theta)/lambda and unit scattering vector of a Cell object are those of unit_cell.py; coordinates and positions are inverse to each other; calc_hkl_in_range lists every reflection of the range once and sorted; the closest distance between two fractional positions is the smallest distance over all lattice translates.", "quantifier": "all non-degenerate cells, reflections, positions and ranges", "why_tests_cant": "continuum of cells; all ranges", "anchors": ["cryspy/C_item_loop_classes/cl_1_cell.py: Cell.form_object, calc_sthovl, calc_k_loc, calc_matrix_t, calc_hkl_in_range, calc_position_by_coordinate, calc_coordinate_by_position, closest_distance_between_fractions"]}
{"id": "C99", "title": "The equivalents of a reflection are its Laue class", "statement": "SpaceGroup.calc_hkl_equiv returns every reflection equivalent to the given one or to its Friedel mate, once; the multiplicity reported times their number is the order of the Laue group; equivalent reflections get the same answer; this holds for every setting of every space group.", "quantifier": "all reflections; all 802 settings that can be built, and every list of operations forming a Laue group", "why_tests_cant": "infinitely many reflections", "anchors": ["cryspy/C_item_loop_classes/cl_2_space_group.py: SpaceGroup.calc_hkl_equiv"]}
{"id": "C100", "title": "The atoms in the unit cell are the images of the atoms given", "statement": "calc_atoms_in_unit_cell lists for each atom, in the order of the atoms, all its images under the operations, brought into the cell, each once, with the label of the atom.", "quantifier": "all lists of operations, atoms and positions", "why_tests_cant": "continuum of positions; the answer depends on rounding", "anchors": ["cryspy/A_functions_base/function_2_crystallography_base.py: calc_atoms_in_unit_cell"]}
{"id": "C101", "title": "Cell.calc_hkl lists every class of reflections in the range once, with its size", "statement": "Cell.calc_hkl returns reflections in the open range of sin(theta)/lambda that are allowed by the centring, sorted, one of each class of equivalent reflections (Friedel mates included), with the number of reflections of the class.", "quantifier": "all cells, space groups and ranges", "why_tests_cant": "all cells and ranges; unbounded indices", "anchors": ["cryspy/C_item_loop_classes/cl_1_cell.py: Cell.calc_hkl; cryspy/E_data_classes/cl_1_crystal.py: Crystal.calc_hkl"]}
{"id": "C102", "title": "Maps over the whole cell agree with the asymmetric unit", "statement": "Filling the cell from the asymmetric unit (transform_to_p1, transfer_to_density_3d, transfer_to_chi_3d, transform_density_point_to_p1) gives every grid point of the cell exactly once with the value of its equivalent in the asymmetric unit (rotated, for a susceptibility); the map has the symmetry of the group and the right total; translations that do not fall on the grid are rejected.", "quantifier": "all groups, grids and densities", "why_tests_cant": "all sizes of grids, all groups, continuum of densities", "anchors": ["cryspy/A_functions_base/function_2_sym_elems.py: transform_to_p1", "cryspy/A_functions_base/function_2_mem.py: transfer_to_density_3d, transfer_to_chi_3d", "cryspy/D_functions_item_loop/function_1_density_point_p1.py: transform_density_point_to_p1"]}
{"id": "C103", "title": "A density file that was written is read again", "statement": "read_den_file after save_to_den_file returns the same grid, cell, operations, shifts, indices and densities, to the digits written; recalc_den_file_to_p1 writes the same density for the whole cell with the identity as the only operation.", "quantifier": "all grids, cells, groups and densities", "why_tests_cant": "all numbers of points and operations, continuum of densities", "anchors": ["cryspy/A_functions_base/function_3_den_file.py: read_den_file, save_to_den_file, recalc_den_file_to_p1"]}
{"id": "C104", "title": "Fourier coefficients from the asymmetric unit are those of the whole cell", "statement": "The sum over the points of the asymmetric unit of density times calc_mem_col (calc_mem_chi) is, for every reflection, the Fourier sum over all points of the cell of the density (times the susceptibility applied to the field), its part perpendicular to the scattering vector, times 0.2695 volume / number of points; a call that uses stored data gives what a first call gives.", "quantifier": "all groups, grids, cells, densities, reflections and histories of calls", "why_tests_cant": "continuum of densities and cells, unbounded grids, all histories", "anchors": ["cryspy/A_functions_base/mempy.py: calc_symm_elem_points_by_index_points, calc_mem_col, calc_mem_chi", "cryspy/procedure_mempy/mempy_by_dictionary.py: mempy_spin_density_by_dictionary"]}
{"id": "C105", "title": "The density reconstruction follows the gradient and returns the best density it tried", "statement": "mempy_reconstruction_by_dictionary: the derivatives used for the steps are the derivatives of the deviation between data and model with respect to the density at each point; the density returned is one of those tried (the first is the prior) and none tried fits better; every density tried is not negative and has integral one (for each atom, in the susceptibility channel); it stops after the maximal number of iterations, or when the fit is as good as desired, or when lambda is too small; the uncertainty of an asymmetry follows from that of the flipping ratio.", "quantifier": "all data, priors, numbers of iterations and parameters", "why_tests_cant": "continuum of data and densities, unbounded number of iterations", "anchors": ["cryspy/procedure_mempy/mempy_by_dictionary.py: mempy_reconstruction_by_dictionary", "cryspy/A_functions_base/mempy.py: renormailize_density_col, renormailize_density_chi"]}
{"id": "C106", "title": "Uncertainties estimated from a simplex", "statement": "error_estimation_simplex: for a quadratic chi square of any number of parameters the error matrix is 2 chi_sq(vertex 0) times the inverse of the matrix of the quadratic form and the second result is the distance of vertex 0 to the minimum, whatever the simplex; the uncertainty reported in the susceptibility refinement of MEM follows from it.", "quantifier": "all quadratic functions, numbers of parameters and simplices", "why_tests_cant": "continuum of functions and simplices, unbounded dimension", "anchors": ["cryspy/A_functions_base/function_1_error_simplex.py: error_estimation_simplex", "cryspy/procedure_mempy/mempy_by_dictionary.py: mempy_susceptibility_refinement"]}
{"id": "C107", "title": "Ion symbols", "statement": "get_atomic_symbol_ion_charge_isotope_number_by_ion_symbol splits the symbol of an atom type into the chemical symbol (first letter capital, the rest small, blanks around ignored), the charge (number and sign; 0 when there is none) and the isotope number in front (None when there is none).", "quantifier": "every name of letters in any case, every charge number of any length with + or -, every isotope number, every number of blanks around", "why_tests_cant": "Tests name a few ions of the tables; the claim is about every symbol a CIF file may contain, and forms that no test uses (isotope with charge, sign without a number) decide scattering lengths and form factors silently.", "anchors": ["cryspy/A_functions_base/charge_form_factor.py: get_atomic_symbol_ion_charge_isotope_number_by_ion_symbol", "cryspy/A_functions_base/function_1_scat_length_neutron.py: get_scat_length_neutron"]}
{"id": "C108", "title": "Electrons of an ion", "statement": "add_ion_charge_to_shell and get_full_shell give the electron configuration of an element with a charge: the electrons are the atomic number less the charge, no sub-shell holds more than it can, positive charges take the last sub-shells and negative ones fill the first ones with room; UserWarning exactly when there are not enough electrons or not enough room, KeyError for names that are no chemical symbols.", "quantifier": "every configuration text of occupied sub-shells and every integer charge; for the table, every element and every integer charge", "why_tests_cant": "Tests try a few ions; conservation of the electrons is a claim about every configuration and every charge, and about all the elements of the table.", "anchors": ["cryspy/A_functions_base/charge_form_factor.py: add_ion_charge_to_shell, get_full_shell, get_shell_orbit_electrons, get_atom_name_ion_charge_shell, calc_jl_for_shell_of_ion"]}
{"id": "C109", "title": "Form factors of Slater orbitals", "statement": "calc_jl gives the integral of r^2 R(r)^2 j_l(4 pi r sin(theta)/lambda) over all distances for the radial function R built from Slater terms; calc_rho_normalized gives the same R(r); a single term is normalised, and <j0> is never larger than in the forward direction.", "quantifier": "every list of Slater terms (any coefficients, positive exponents, quantum numbers from 1), every kappa > 0, every sin(theta)/lambda, every largest order", "why_tests_cant": "The recursion of calc_transs is a closed form of improper integrals; tests compare a few numbers, not the integral for every orbital and every angle.", "anchors": ["cryspy/A_functions_base/orbital_functions.py: calc_jl, calc_jl_per_2sthovll, calc_transs, calc_rho_normalized, calc_density_spherical"]}
{"id": "C110", "title": "Tabulated X-ray amplitudes", "statement": "calc_scattering_amplitude_tabulated has an entry for every element up to californium, in any case of letters; the amplitude in the forward direction is the number of electrons (atomic number less charge) to 0.06, it does not grow with the angle, and the derivative returned with it is its derivative.", "quantifier": "every element symbol in any spelling, every charge, every sin(theta)/lambda", "why_tests_cant": "A wrong or missing entry of the 211 shows only for its element; the monotonicity is about every angle.", "anchors": ["cryspy/A_functions_base/charge_form_factor.py: calc_scattering_amplitude_tabulated", "cryspy/A_functions_base/database.pickle: Scattering amplitude"]}
{"id": "C111", "title": "Tabulated magnetic form factors", "statement": "get_j0_j2_parameters gives parameters of <j0> and <j2> for the ion symbol with which the magnetic form factor is 1 in the forward direction; no ion is silently given another form factor.", "quantifier": "every ion symbol in any spelling with blanks around, every Lande factor and kappa, every angle", "why_tests_cant": "The table has 392 entries and the symbols are free text; a missing entry leaves zeros without an error.", "anchors": ["cryspy/A_functions_base/magnetic_form_factor.py: get_j0_j2_parameters, calc_form_factor", "cryspy/A_functions_base/database.pickle: Magnetic Form Factor, tabulated"]}
{"id": "C112", "title": "X-ray amplitudes from Slater orbitals", "statement": "calc_jl_for_ion gives, as its first number, the X-ray amplitude of an ion; in the forward direction it is the number of electrons of the ion, atomic number less charge.", "quantifier": "every element, every charge, every spelling of the symbol with blanks around, every kappa > 0 and every largest order", "why_tests_cant": "The amplitude is a sum over the 437 tabulated orbitals of 62 elements, each of up to 13 terms; a misprint in the table shows only for the ions that have that orbital.", "anchors": ["cryspy/A_functions_base/charge_form_factor.py: calc_jl_for_ion, calc_jl_for_shell_of_ion, get_n_zeta_coeff_for_atom_with_orbital", "cryspy/A_functions_base/database.pickle: Orbitals by radial Slater functions"]}
{"id": "C113", "title": "X-ray amplitudes of the atoms of a crystal", "statement": "The dictionary of a crystal holds, for each atom at its place, the X-ray amplitude of its own type symbol: from the Slater orbitals, or from the table of Gaussians when an orbital is missing; in the forward direction it is the number of electrons; an atom with no amplitude does not disturb the others, and type symbols accepted elsewhere do not make it fail.", "quantifier": "every list of type symbols, every sin(theta)/lambda", "why_tests_cant": "The two sources, their exceptions and the flag interact over all atoms of a structure; tests use a few structures whose atoms are all in the tables.", "anchors": ["cryspy/E_data_classes/cl_1_crystal.py: Crystal.get_dictionary (l.689-715)", "cryspy/A_functions_base/charge_form_factor.py: calc_jl_for_ion, calc_scattering_amplitude_tabulated"]}
{"id": "C114", "title": "Background and incident spectrum of a time-of-flight experiment in the fit", "statement": "The background used in a time-of-flight fit is the one TOFBackground.calc_background gives for the same object at the measured times, whatever coefficients are given and whatever range is measured; fitted coefficients written back are those of the next fit, with their flags; the incident spectrum used is the documented one that TOFIntensityIncident.calc_spectrum gives.", "quantifier": "every set of given coefficients and flags, every time_max, every list of times, every spectrum type and coefficients", "why_tests_cant": "The same curve is calculated in two places, from the object and from the dictionary made of it; tests evaluate each at one set of coefficients.", "anchors": ["cryspy/C_item_loop_classes/cl_1_tof_background.py: TOFBackground.calc_background, get_coefficients, get_flags_coefficients, get_dictionary", "cryspy/C_item_loop_classes/cl_1_tof_intensity_incident.py: TOFIntensityIncident.calc_spectrum, get_dictionary", "cryspy/procedure_rhochi/rhochi_tof.py: calc_background_by_cosines, calc_spectrum_incident, l.144-187", "cryspy/E_data_classes/cl_2_tof.py: TOF.take_parameters_from_dictionary (l.229-233)"]}
{"id": "C115", "title": "The resolution shown by the object is the one used in the fit", "statement": "PdInstrResolution.calc_resolution gives, at every angle, the Gaussian, Lorentzian and total width and the mixing parameter the fit uses for a reflection of the phase; its coefficients a and b give the peaks of the fit, and the total width is their full width at half maximum.", "quantifier": "every set of resolution parameters of the instrument and of the phase, every angle", "why_tests_cant": "The same curve is calculated by the object in degrees and by the fit in radians; tests evaluate one of the two at a few angles.", "anchors": ["cryspy/C_item_loop_classes/cl_1_pd_instr_resolution.py: PdInstrResolution.calc_resolution", "cryspy/A_functions_base/powder_diffraction_const_wavelength.py: calc_h_g, calc_h_l, calc_h_pv, calc_eta, func_gauss_by_h_pv, func_lorentz_by_h_pv", "cryspy/procedure_rhochi/rhochi_pd.py: l.355-358"]}
