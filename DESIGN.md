# Formal model of ikibalin/cryspy in Rocq (Coq 8.16.1)

## 1. Approach

* The source in /repo is read as text; nothing is run.  Every Gallina definition in
  `rocq/theories/Model/*.v` carries a comment with the file and lines it models and the
  simplifications made.
* Floating point numbers are idealised as real numbers `R` (Coq standard library reals);
  complex numbers are pairs of reals (Coquelicot `C`).  numpy broadcasting is modelled by the
  scalar kernel of each column, and by lists where the property is about the whole array.
  Integer arrays (symmetry elements, grid indices, hkl) are over `Z`, unbounded.
* Python exceptions (KeyError, AttributeError, NameError ...) are values (`None`/error constructors)
  whenever a property touches the branch that raises.
* Directory layout:
  * `Spec/`  small independent specifications (3x3 linear algebra with indices, groups of
    operations modulo lattice translations, ...), nothing from the code;
  * `Model/` the code, function by function;
  * `Proofs/` lemmas;
  * `Props/` the property theorems only: each closed by `exact`, followed by
    `Print Assumptions`, with non-vacuity `Example`s beside them.
* A property violated by the code as written gets a theorem `..._refuted` with a concrete
  witness (and, where useful, a theorem that says exactly how far the code is from the claim, or
  under which guard the claim is true).

## 2. Trusted base

* Coq kernel (8.16.1), the standard library, and Coquelicot / mathcomp definitions used in statements
  (`is_derive`, `RInt`, matrices).
* Axioms: only those of the standard library's real numbers (`ClassicalDedekindReals.sig_forall_dec`,
  `ClassicalDedekindReals.sig_not_dec`, `FunctionalExtensionality.functional_extensionality_dep`) and
  `Classical_Prop.classic` through Coquelicot.  `Print Assumptions` is under every theorem.
* The faithfulness of the reading of the Python source (cited by line).
* Idealisations: floats are reals (no rounding, no NaN, no overflow), numpy broadcasting is right,
  Python evaluation order is irrelevant for the pure kernels.

## 3. Plan by property

| id | what is modelled | how it is proved |
|----|------------------|------------------|
| C01 | matrix_operations product kernels as explicit 9/6/3-tuples | index-sum spec, case analysis on indices + `ring` |
| C02 | calc_det_m, calc_inv_m with the 1e-12 branch | `field`, branch on `Rlt_dec` |
| C03 | calc_m_sq | refutation by witness + exact characterisation |
| C04 | vector products | `ring`, Cauchy-Schwarz |
| C05 | calc_m_q_inv_m, calc_m1_m2_inv_m1, calc_mm_* | `field` |
| C06 | dder branches | Coquelicot `auto_derive`, refutations by witness |
| C07-C10 | unit_cell value functions | trig identity sin^2+cos^2=1, `field`, `nra` |
| C11 | unit_cell derivative branches | `auto_derive` + refutations |
| C12, C13 | integer fraction sums | `Z` gcd/mod arithmetic; refutation |
| C14, C15 | calc_symm_flags, multiplicity | group action on Q/Z classes, orbit-stabiliser by list counting |
| C16, C17 | grid actions | finite permutations, lists |
| C18, C19, C20 | expansion of operations | list induction, `Z` arithmetic |
| C21 | symop string parser/printer | character-level model over `string`, induction |
| C22-C24 | averaging operators | reindexing of finite sums over a group (Permutation) |
| C25, C26 | decision tables | case analysis |
| C27-C30 | object model as state machine | invariants over operation lists |
| C31 | decimal codec | partial: integer/scaled decimal model of format |
| C32-C34 | structure-factor sums over lists, complex exponentials | list sums, trigonometric periodicity |
| C35, C36 | calc_dwf call and cache logic | refutation + guarded positive theorem |
| C37 | hkl list generation | list algorithms |
| C38-C40 | calc_iint | `nra`/sum of squares, `auto_derive` |
| C41-C43 | powder terms | Riemann integral of trig polynomials, `ring`, `auto_derive` |
| C44-C46 | profile functions | real analysis |
| C47, C48 | extinction | real analysis |
| C49, C50, C61 | ADP, texture, form factor | `field`, real analysis |
| C51 | Hamilton constraints | mathcomp matrices over a field |
| C52, C53 | refinement loop as state machine with oracle chi-square | invariant |
| C54-C56 | chi-square assembly, background | list induction |
| C57, C58 | MEM | list sums; refutation for ties |
| C59 | name tables | finite tables, `forallb` + `vm_compute` |
| C60, C66 | correlation matrix, sigmas, numerical second derivatives | real algebra over index functions |
| C62 | calc_matrix_t | `field`, orthogonality from the index-sum spec |
| C63, C64 | flags of coordinates, displacement-tensor cases | case analysis; refutations by witness |
| C65 | rhochi refinement procedure as a program over the dictionary | invariant over the list of evaluated points |
| C67 | cell item with restrictions by type_cell | state machine over item operations |
| C68-C73 | space-group module: table cards, operations, centring, Wyckoff positions, SpaceGroup item, atom-site position lookup | the 802 offered settings are evaluated by the kernel; soundness of each boolean checker is a theorem, statements are about the mathematical objects (see section 4) |
| C74-C78 | to_cif/from_cif of items and loops, text of data blocks and files, find_prefix | the CIF 1.1 grammar as a scanner (Spec/StarSpec.v) stands for the external reader pycifstar; scanner lemmas composed over lines; induction over attributes, columns, items; refutations by evaluation |
| C79-C84 | calc_sft_ccs (value, stored data, derivative over chi), calc_f_m_perp_by_sft, calc_f_m_perp_ordered, calc_bulk_susceptibility | one dictionary = record of optional stored arrays, histories as lists of calls; sums over operations reindexed by the group action (as C32/C33); covariance from A M = M R; refutations by concrete crystals; derivative by Coquelicot is_derive |
| C85, C86 | time-of-flight kernels (thermal and epithermal time, Jorgensen peak, Z-code), areas of all peak functions | scalar kernels over reals; erfc by its integral, the Gaussian integral proved, improper integrals by antiderivatives and limits |
| C87 | rootsearch, bisect, calc_roots | loops with fuel; search grid as nodes min(a + k dx, b), intermediate value theorem, invariant of the bisection |
| C88 | app_grid, app_2d, recal_int_to_* | lists; inductive specification of bilinear interpolation, proved functional |
| C89, C90 | local_susceptibility.py, apply_chi_iso_constraint | numpy.linalg.eigh by its contract; induced moments as the independent notion; refutations by concrete tensors |
| C91 | calc_el_symm_for_xyz with rounding to five digits, numpy.unique and the distance test | rounding error bounds; position of the image in the sorted list of distinct images |
| C92 | calc_constr_matrix (elimination with tolerance, rounding), calc_independent_lines (determinants), apply_space_group_constraint | kernel preserved by every elimination step (any size); weighted-symmetric contractions stay so under the Schur complement, hence a triangular 0/1 form; the site average of calc_sc_chi is such a contraction (group reindexing, orthogonality) |
| C93-C95 | function_1_matrices.py: rotations, Euler angles, products, inverse, angle, tri-linear interpolation | scalar kernels over reals; turns about an axis as the independent notion; atan2 and arccos by cases; interpolation by the integer part |
| C96, C97 | cl_2_diffrn_orient_matrix.py | gram matrix of UB inverted; triangular form of B; Ewald condition as the independent notion |
| C98 | Cell object of cl_1_cell.py | agreement with the functions of C07-C11; box bounds of the reflection list; nearest integer in each coordinate |
| C99 | calc_hkl_equiv | orbit and stabilizer counted over the signed rotations; a check that every setting's reduced list is a Laue group, run by the kernel over all settings |
| C100 | calc_atoms_in_unit_cell | sorted distinct rounded images; rounding error bounds |
| C101 | Cell.calc_hkl | invariants of the loop; separation of classes by the sort key 10000h+100k+l |
| C102 | transform_to_p1, transfer_to_density_3d, transfer_to_chi_3d, transform_density_point_to_p1 | integer index arithmetic exact on compatible grids; sorted distinct first occurrences; sums over the grid partitioned into classes |
| C103 | density files (read, save, recalc to P1) as lists of tokens | rounding to k decimals and recovery of translations with denominators dividing 48; composition with C102 |
| C104 | Fourier coefficients of a density on the asymmetric unit, stored data | sum over the operations = stabiliser times sum over the orbit (C15, C16); classes of the grid partition the cell (C102); Cartesian operations (C18); invariant of the dictionary |
| C105 | mempy_by_dictionary.py l.230-455 (mempy_reconstruction_by_dictionary) as an iteration over densities, on top of the models of calc_iint, calc_flip_ratio_by_iint, calc_asymmetry_by_iint and the renormalisations | Chain rule through the intensities (C38-C40 derivatives) and linearity of the structure factors in each density; induction over the iterations for the invariants (best of tried, normalisation, value of lambda) |
| C106 | function_1_error_simplex.py (error_estimation_simplex) and mempy_by_dictionary.py l.591-605, any dimension; numpy.linalg.inv is an argument with its contract | Values of a quadratic function at vertices and midpoints by sums with delta, uniqueness of the inverse, counterexamples in one and two dimensions |
| C107 | Model/Ions.v: the scan over the letters, the two slices and int(). | Lemmas about scanning digits and letters; for the refutation the slice is longer than the name, whatever the symbol. |
| C108 | Model/Ions.v: the two loops on the texts, the table of 118 configurations, the recursion over the noble-gas cores, the count of calc_jl_for_shell_of_ion. | Induction over the sub-shells with the texts read and printed; a checker evaluated for 117 elements and its soundness for every charge. |
| C109 | Model/Slater.v: the radial function, the recursion over the list a of calc_transs (including the last value of i3 used when the loop is empty), the sum over pairs, the powers of 2 sin(theta)/lambda. | Antiderivatives by a two-term recursion for r^k exp(-zr) sin(Qr) and cos(Qr), limits at infinity by an exponential bound, induction over the two loops, bilinearity over the pairs of terms; higher orders from the three-term recurrence of the Bessel functions and two algebraic identities of the recursion; the refutation from a polynomial lower bound of j_2. |
| C110 | Model/FormTables.v: the table of 211 entries, the lookup of the capitalised symbol, the four Gaussians and the derivative. | The table is checked by evaluation and the check proved sound for every spelling; Coquelicot derivative; sign analysis of each Gaussian. |
| C111 | Model/FormTables.v: the table of 98 ions, the lookup by name and charge after the symbol is parsed (Model/Ions.v), the zeros for a missing key. | Evaluation of the table; the parser's correctness (C107) for every spelling; the value of the form factor at sin(theta)/lambda = 0. |
| C112 | Model/IonFactor.v and Model/RadialTable.v: the table up to krypton and molybdenum, the lookup, the loop over the sub-shells with its exceptions, on top of Model/Slater.v and Model/Ions.v. | The overlap of two terms is a rational times the root of a rational, bounded by integer arithmetic with a proved error; the table is then checked by evaluation, and the loop proved by induction over the sub-shells. |
| C113 | Model/CrystalXray.v: the loop over type symbols with the flag, the two sources and the exceptions they raise, one value of sin(theta)/lambda. | Induction over the list of symbols with the flag as invariant; the forward values from C110 and C112; the elements with missing orbitals by computation. |
| C114 | Model/TofItems.v: the object with optional coefficients and flags, its curve, the lists given to the fit, the curve of the fit (Model/Background.v), writing back, both spectra, the dictionary of the experiment with the NameError. Not modelled: an attribute set to the Python None, the text of the items, other entries of the dictionary. | Induction over the list of optional coefficients (the cut after the last one given drops only zeros); the greatest element of the list of times; one harmonic at half the time for the refutations. |
| C115 | Model/Resolution.v: calc_resolution at one angle with NaN as no result, the sums of instrument and phase parameters of the fit; the fit's functions are those of Model/Profile.v. | Algebra with the angle in degrees and radians, positivity of the fifth power of the width; exp (- ln 2) for the half width; one set of parameters at 90 degrees for the refutation. |

## 4. The space-group tables

`Model/SgTables.v` and `Model/WyckoffData.v` are the text files
`cryspy/A_functions_base/*.dat` / the Wyckoff strings of the repository, copied by a script as Coq strings;
`Model/SpaceGroup.v` is the parser and everything built on it.  `Proofs/SgDataP.v` contains the evaluated
table as a literal and a kernel-checked equation that the parser gives it on those strings; all the later
finite checks run on the literal.  No check is a bounded approximation of an infinite statement: the table
is finite, and statements about all points of space, all atoms and all lattice translations are
derived from the checkers by soundness lemmas (`SgCheckP`, `WyckSolP`, `SgMetricP`).
`vm_compute` is used to build the proofs; coqchk re-checks them with kernel reduction alone.

## 5. Modelled and not modelled

Modelled (file by file, the citations are in `Model/`): matrix_operations, unit_cell, symmetry_elements,
symmetry_constraints, the vibration constraints, string and number helpers, powder profile
(constant wavelength), flip_ratio, extinction, powder intensities, Debye-Waller and form factors,
preferred orientation, time-of-flight kernels (Gaussian parts), root finding, regridding of 2D patterns, the refinement loop and its constraints, backgrounds, chi-square assembly,
Hessian/errors, MEM kernels, nuclear and magnetic structure factors, hkl generation, the item/loop/data
object model, space groups and Wyckoff positions, the local susceptibility (magnetization ellipsoids),
rotation matrices, the orientation matrix and setting angles, the Cell object, orbits of reflections and atoms, maps of densities over the cell and their files, the operations fixing a site and the susceptibility constraints derived from them, the CIF text of items, loops, data blocks and files
(the package pycifstar that parses it is replaced by the grammar of the format).

Not modelled: the Lorentzian time-of-flight peaks (complex exponential integral), the numpy broadcasting
around the scalar kernels, the replacement of overflowing exponentials by 1e200.

Not expressible in a model: rendering (HTML, plots), external scipy minimisers' numerical convergence,
floating-point rounding.
