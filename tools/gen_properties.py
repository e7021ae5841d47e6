#!/usr/bin/env python3
"""Writes /verif/properties.jsonl (one JSON object per line) from the table below."""
import json, os
P = []
def p(title, statement, quantifier, why, anchors):
    P.append(dict(id="C%02d" % (len(P) + 1), title=title, statement=statement,
                  quantifier=quantifier, why_tests_cant=why, anchors=anchors))
S = "src/tavi/"
p("Goniometer matrix is a proper rotation",
  "Whenever Goniometer.r_mat(angles) returns, the matrix is orthogonal with determinant +1, and r_mat_inv(angles) is its two-sided inverse; it raises exactly when the goniometer type is unsupported or a required angle is missing.",
  "every goniometer type string, every combination of motor signs, every real value of the motor angles",
  "uncountably many angles and every sign pattern; tests sample a handful of angles",
  [S+"instrument/components/goni.py:Goniometer.r_mat", S+"instrument/components/goni.py:Goniometer.r_mat_inv", S+"utilities.py:rot_x,rot_y,rot_z"])
p("Motor angles recovered from a rotation matrix reproduce it",
  "For every proper rotation R whose tilt is not +-90 degrees, the angles returned by angles_from_r_mat(R, two_theta) give back R through r_mat, and so for every R once the tilt motor is limited to a range inside (-90,90); for angles in the principal ranges angles_from_r_mat inverts r_mat exactly, or raises ValueError when a motor limit forbids them. Exception (finding): at a tilt of +-90 degrees the angles returned need not give back R.",
  "every proper rotation matrix, every sign pattern of a Y,Z,X goniometer",
  "the claim is an inverse-function law over SO(3) and has a singular locus tests do not visit",
  [S+"instrument/components/goni.py:Goniometer.angles_from_r_mat", S+"instrument/components/goni.py:Goniometer.r_mat"])
p("Motor limits are respected by every returned position",
  "Any MotorAngles returned by angles_from_r_mat or angles_in_bisect_mode satisfies every limit set through set_limit (inclusive), a missing bound being unbounded; otherwise ValueError is raised and the goniometer is unchanged. The last set_limit for a motor wins and unknown motor names are rejected. A goniometer on which no limit was set holds both tilts within ten degrees and leaves the other motors free.",
  "every history of set_limit calls, every rotation matrix and reflection",
  "must hold for every sequence of limit updates and every angle",
  [S+"instrument/components/goni.py:Goniometer.set_limit", S+"instrument/components/goni.py:Goniometer.validate_motor_positions"])
p("Spice and Mantid conventions are mutually inverse",
  "Converting a vector or matrix from one convention to the other and back is the identity, lengths, dot and cross products are preserved, and what is written to UBConf.ub_mat / u_mat / plane_normal / in_plane_ref is what is read back, in either convention, leaving the other three unchanged; an unknown convention raises ValueError. Exception (finding): reading a plane normal that was never set gives None in the Mantid convention but raises TypeError in the Spice convention.",
  "every vector, matrix and convention string, every sequence of property writes",
  "identity over all real matrices and over all interleavings of property writes",
  [S+"ub_algorithm.py:UBConf", S+"ub_algorithm.py:mantid_to_spice", S+"ub_algorithm.py:spice_to_mantid", S+"utilities.py:spice_to_mantid,mantid_to_spice"])
p("Energy and wavevector conversions are inverse, monotone and guarded",
  "en2q and q2en are mutually inverse on non-negative values, strictly increasing, and raise exactly on negative input.",
  "every real energy and wavevector",
  "continuum of inputs",
  [S+"utilities.py:en2q", S+"utilities.py:q2en"])
p("Scattering triangle closes exactly when an angle is returned",
  "get_angle_from_triangle(a,b,c) for positive sides (a, b at least 1e-6) returns an angle in [0,pi] iff |a-b|<=c<=a+b, and get_side_from_triangle(a,b,angle) is then c; conversely the angle is recovered from the side.",
  "every triple of real side lengths",
  "an iff over all reals including the degenerate boundary",
  [S+"utilities.py:get_angle_from_triangle", S+"utilities.py:get_side_from_triangle"])
p("Two-theta closes the scattering triangle and psi is its companion",
  "If get_two_theta returns for (hkl, en) then |ki - kf| at that angle equals |Q| of hkl, the sign of two_theta is the goniometer sense, its magnitude lies in [0,180], psi has the opposite sign with magnitude in [0,180], and both describe the same triangle: the lab momentum transfer is |Q| at angle psi from the beam. Both raise exactly when the triangle cannot be closed.",
  "every sample lattice, every hkl, every energy transfer, both senses",
  "nonlinear identity over seven real parameters and boundary cases",
  [S+"instrument/tas.py:TAS.get_two_theta", S+"instrument/tas.py:TAS.get_psi", S+"ub_algorithm.py:two_theta_from_hkle,psi_from_hkle,q_lab"])
p("Incident and final energies obey energy conservation",
  "With exactly one of Ei/Ef given or fixed, the pair used satisfies ei - ef = en and the given/fixed one is unchanged; explicit arguments override the instrument's fixed values; with neither, ValueError. When both are known the requested energy transfer is silently ignored.",
  "every combination of given/missing Ei, Ef and fixed values, every energy transfer",
  "all combinations of optional inputs and all reals",
  [S+"instrument/tas.py:TAS._get_ei_ef"])
p("Direct and reciprocal lattice vectors are dual",
  "For a non-degenerate cell the reciprocal vectors satisfy a_i . b_j = 2 pi delta_ij; lengths and angles of the real-space vectors are the lattice parameters; the cell volume is a.(b x c)=abc*V(alpha,beta,gamma).",
  "every non-degenerate set of six lattice parameters",
  "trigonometric identities over six real parameters",
  [S+"lattice_algorithm.py:real_space_vectors", S+"lattice_algorithm.py:reciprocal_space_vectors", S+"lattice_algorithm.py:v_alpha_beta_gamma_calc"])
p("Reciprocal lattice parameters describe the reciprocal vectors",
  "reciprocal_latt_params gives exactly the lengths of, and the angles between, the vectors of reciprocal_space_vectors; reciprocal_basis is a right-handed orthonormal frame with i* along a* and b* in the i*-j* plane.",
  "every non-degenerate cell",
  "trigonometric identities over six real parameters",
  [S+"lattice_algorithm.py:reciprocal_latt_params", S+"lattice_algorithm.py:reciprocal_basis"])
p("B matrix encodes the reciprocal metric",
  "(2 pi)^2 B^T B is the Gram matrix of the reciprocal lattice vectors, B is upper triangular with positive diagonal, so 2 pi |B hkl| equals |h a* + k b* + l c*|: Sample.get_q_norm and q_norm_from_hkl agree.",
  "every non-degenerate cell and every hkl",
  "identity over nine real parameters",
  [S+"lattice_algorithm.py:b_mat_from_lattice", S+"sample.py:Sample.get_q_norm", S+"ub_algorithm.py:q_norm_from_hkl"])
p("Lattice parameters round-trip through B and UB",
  "lattice_params_from_b_mat(b_mat_from_lattice(p)) = p for every valid cell, and for every rotation U the lattice parameters, B matrix and U matrix are recovered from U.B by ub_matrix_to_lattice_params, b_mat_from_ub_matrix and u_mat_from_ub_matrix.",
  "every non-degenerate cell with angles in (0,180) and every rotation",
  "round trip over SO(3) times a six-parameter family",
  [S+"lattice_algorithm.py:lattice_params_from_b_mat", S+"lattice_algorithm.py:lattice_params_from_g_star_mat", S+"ub_algorithm.py:b_mat_from_ub_matrix,u_mat_from_ub_matrix,ub_matrix_to_lattice_params"])
p("Lattice update is validated and atomic",
  "update_lattice_parameters accepts exactly tuples of six with positive lengths and angles in [0,180]; on rejection the sample keeps all of its previous lattice parameters. In any history of updates the stored parameters are those of the last accepted call. Exception (finding): some accepted cells cannot exist, and their reciprocal vectors are not numbers.",
  "every sequence of updates with arbitrary reals and tuple lengths",
  "holds over all histories of accepted and rejected updates",
  [S+"sample.py:Sample.update_lattice_parameters"])
p("|Q| is a norm on hkl and independent of U",
  "q_norm_from_hkl is non-negative, homogeneous, satisfies the triangle inequality, gives the same value for B and U.B, and is zero only at hkl=0 for an invertible matrix.",
  "every hkl, every matrix, every rotation",
  "norm axioms over all reals",
  [S+"ub_algorithm.py:q_norm_from_hkl"])
p("U from two peaks is a rotation that reproduces the first peak and plane",
  "For two non-collinear observed peaks find_u_from_two_peaks returns a proper rotation taking B.hkl1 onto the measured direction of peak 1 and B.hkl2 into the measured half-plane; if the peaks were generated by a rotation U0 it returns U0.",
  "every B matrix, pair of peaks, energies and goniometer positions",
  "exactness over all geometries, and consistency recovery",
  [S+"ub_algorithm.py:find_u_from_two_peaks"])
p("U from one peak and a scattering plane",
  "find_u_from_one_peak_and_scattering_plane, when the peak lies in the plane, returns a proper rotation taking B.hkl onto the measured direction and the scattering-plane normal onto the vertical line of the goniometer setting; for perpendicular plane vectors it does return one. Exception (finding): for perpendicular plane vectors u and v the normal points up exactly when the peak is more along u than along v; otherwise it points down.",
  "every B matrix, peak in the plane, scattering plane and energies",
  "exactness over all geometries",
  [S+"ub_algorithm.py:find_u_from_one_peak_and_scattering_plane"])
p("UB from three peaks reproduces all three peaks",
  "find_ub_from_three_peaks returns the unique matrix with 2 pi UB hkl_i = measured Q_i, exactly for non-coplanar peaks; calculate_ub_matrix stores it for right-handed triples and refuses coplanar ones. Exceptions (findings): it also refuses every left-handed triple, and after a three-peak UB no motor angles can be calculated, as no plane is stored.",
  "every triple of peaks",
  "uniqueness and exactness over all triples",
  [S+"ub_algorithm.py:find_ub_from_three_peaks", S+"instrument/tas.py:TAS.calculate_ub_matrix"])
p("UB from many peaks is the least-squares solution",
  "find_ub_from_multiple_peaks minimises the summed squared residual over all matrices, recovers UB0 exactly from peaks generated by UB0, does not depend on the order of the peaks, and repeating the whole list changes nothing.",
  "every list of peaks of any length spanning reciprocal space",
  "optimality against every competing matrix, any number of peaks",
  [S+"ub_algorithm.py:find_ub_from_multiple_peaks"])
p("u,v vectors and UB determine each other",
  "uv_to_ub_matrix(*ub_matrix_to_uv(UB), lattice) = UB for every UB = U.B, and for every non-collinear u, v the resulting UB sends u along the beam and v into the horizontal half-plane.",
  "every non-degenerate cell, rotation and pair u,v",
  "round trip over all orientations",
  [S+"ub_algorithm.py:ub_matrix_to_uv", S+"ub_algorithm.py:uv_to_ub_matrix"])
p("Minimal-tilt rotation brings the reflection into the diffraction condition",
  "When the triangle closes, the R returned by r_matrix_with_minimal_tilt sends 2 pi UB hkl exactly onto the lab momentum transfer; when the reflection is exactly in the plane or at least 1e-5 out of it, R is a proper rotation; in plane the plane normal stays vertical, out of plane no other rotation satisfying the diffraction condition keeps the normal closer to vertical. R exists exactly when the reflection is not along the plane normal, or is along it and a reference direction in the plane was given that is not along the reflection. Exception (finding): for reflections out of the plane by less than 1e-5, R is never a rotation.",
  "every UB, hkl, energies, plane normal",
  "case analysis over tolerance branches and all reals",
  [S+"ub_algorithm.py:r_matrix_with_minimal_tilt"])
p("hkl -> motor angles -> hkl is the identity",
  "For elastic scattering, or with both energies fixed, with a Y,Z,X goniometer, if calculate_motor_angles(hkl) returns a position with tilt strictly between -90 and 90 degrees, calculate_hkl_from_angles of that position is hkl; likewise with a four-circle in bisect mode and sense '-'. Exceptions (findings): with a four-circle of sense '+' it is -hkl, and for inelastic positions with one energy fixed it is never hkl.",
  "every hkl, UB, energies, motor signs and senses",
  "composition of six non-linear functions over all reals",
  [S+"instrument/tas.py:TAS.calculate_motor_angles", S+"instrument/tas.py:TAS.calculate_hkl_from_angles", S+"instrument/components/goni.py:Goniometer.angles_in_bisect_mode"])
p("Rebinning assigns each point to at most one bin, by position",
  "Under (min,max,step) rebinning (tolerance or grid), a data point contributes to exactly one bin when it lies in the covered interval and to none otherwise; the bin is the one whose half-open interval centred on min+i*step contains it, up to the documented step/100 shift of the edges.",
  "every data set, every min, max and positive step",
  "all data lengths and all boundary coincidences",
  [S+"data/scan_data.py:ScanData1D.rebin_tol", S+"data/scan_data.py:ScanData1D.rebin_grid"])
p("Rebinning conserves counts",
  "The sum over bins of (mean y times number of points) equals the sum of y over the points inside the range, and the number of points in bins equals the number of points in range; with normalisation the same holds for y and the normalisation column. Two measurements rebinned together give in every bin the mean of their separate values, weighted with what each was divided by.",
  "every data set of any length",
  "conservation over arbitrary-length data",
  [S+"data/scan_data.py:ScanData1D.rebin_tol,rebin_tol_renorm,rebin_grid,rebin_grid_renorm"])
p("Rebinned values and errors are what counting statistics says",
  "In every populated bin y is the arithmetic mean (or norm_val * sum y / sum norm), err is sqrt(sum y) divided by the same denominator, x is the bin centre (grid) or the normalisation-weighted mean of the contributing x (tolerance), which lies inside the bin; the points come in order of x, and without renormalisation y lies between the smallest and largest y of its points.",
  "every data set and bin",
  "for every bin content",
  [S+"data/scan_data.py:ScanData1D"])
p("Rebinning is independent of the order of the data",
  "Permuting the input points (x, y and normalisation together) does not change any rebinned array.",
  "every data set and every permutation",
  "all permutations of all data sets",
  [S+"data/scan_data.py:ScanData1D.rebin_tol,rebin_grid"])
p("Renormalisation scales values and errors together",
  "renorm multiplies y and err pointwise by norm_val/norm, so relative errors are unchanged, and raises ValueError exactly when neither the call nor the data has a normalisation; renormalising a second time with the reciprocal ratio restores the data.",
  "every data set and norm",
  "all data lengths",
  [S+"data/scan_data.py:ScanData1D.renorm"])
p("Background subtraction",
  "Subtracting one-dimensional data sets with the same number of points keeps x, subtracts y and adds errors in quadrature. Exception (finding): with different numbers of points the operation raises AttributeError, or gives only nan and overwrites the operand.",
  "every pair of data sets",
  "all lengths; error path never exercised",
  [S+"data/scan_data.py:ScanData1D.__sub__"])
p("Rebin parameters are validated",
  "format_rebin_params accepts exactly: a number, a pair or a triple with min<max and step>=0, and normalises them to (min,max,step); everything else raises ValueError. Exceptions (findings): an accepted zero step makes every rebinning raise ZeroDivisionError, and an accepted pair makes get_data raise TypeError.",
  "every parameter object",
  "all shapes and values",
  [S+"data/scan.py:Scan.format_rebin_params"])
p("Two-dimensional rebinning conserves counts and separates cells",
  "In 2D grid rebinning each point contributes to at most one cell, cells are determined independently by x and y, total counts are conserved over the covered rectangle, and the result is independent of the order of points.",
  "every 2D data set",
  "all data lengths and boundary coincidences",
  [S+"data/scan_data.py:ScanData2D.rebin_grid,rebin_grid_renorm"])
p("Filter results are exactly the matching scans",
  "For conditions applicable to all scans and other than <= and !=, the result is the sorted list of names of the scans that satisfy all ('and') or some ('or') of them, without duplicates, independently of the order of conditions and scans. Exceptions (findings): <= keeps scans with at least one value that small; != drops scans it should keep (though it keeps no scan it should drop); an unknown text keyword on a scan without UB raises TypeError. For every operation as coded: a filter answers with names exactly if there is a condition, the logic is 'and' or 'or' and every condition can be evaluated on every scan; one condition more narrows the answer of 'and' and widens that of 'or'; two lists of conditions together give what both ('and') or either ('or') give; scans loaded later do not change the answer about those already there.",
  "every set of scans, every list of conditions, both logics",
  "all scan collections and all condition lists",
  [S+"tavi_model/filter.py:Filter.filter_data", S+"tavi_model/filter.py:Filter._condition_factory"])
p("Filtering is repeatable",
  "Calling filter_data any number of times on the same Filter object gives the same answer as calling it once. Exception (finding): after its conditions are changed, a used Filter may answer differently from a new one.",
  "every filter object and number of calls",
  "history property",
  [S+"tavi_model/filter.py:Filter.filter_data"])
p("Events reach every subscriber of that exact type once per registration, in order",
  "publish(event) calls the callbacks registered for type(event), each once per registration and in registration order, no callback of another type; all EventBroker() objects share one registry; registrations made while no event is published are never lost. An exception in a callback prevents the later ones from running.",
  "every history of register/publish on any number of broker objects",
  "all interleavings",
  [S+"EventBroker/event_broker.py:EventBroker"])
p("Loading a folder publishes every file once, whatever the completion order",
  "Whatever order worker batches finish in, the file list after load contains each file of the folder exactly once (as a multiset, in addition to earlier ones) and the published list is the sorted list of the folder's files; selected metadata is that of the selected file.",
  "every folder content, every completion schedule of the pool, every history of loads",
  "all schedules",
  [S+"tavi_model/dummy_model.py:TaviProject.load", S+"tavi_model/dummy_model.py:TaviProject.get_selected_metadata"])
p("Loaded scans are grouped by data set and retrievable",
  "Reloading an already opened project file groups every scan under its dataset name, loses none and leaves other scans unchanged; get_scan(n) and get_scan((exp,n)) return the scan stored under scanNNNN; unknown scans raise.",
  "every set of scans and every lookup",
  "all collections",
  [S+"data/tavi.py:TAVI.load_data", S+"data/tavi.py:TAVI.get_scan"])
p("Loading more data from an experiment keeps earlier data",
  "Loading a second folder (or a subset of scans) of an experiment already loaded keeps the scans loaded before. (False: after any history of loads a project holds of each experiment exactly the scans of the last load that names it, so that scans are kept exactly if they are loaded again.)",
  "every history of loads",
  "history property",
  [S+"data/tavi.py:TAVI.load_spice_data_from_disk", S+"data/tavi.py:TAVI.load_nexus_data_from_disk"])
p("Group of scans collects exactly the requested scans",
  "group_scans returns a group with one member per requested number, in order, equal to get_scan of it, and fails if any is missing; default group names are numbered without reuse.",
  "every request list",
  "all lists",
  [S+"data/tavi.py:TAVI.group_scans", S+"data/scan_group.py:ScanGroup"])
p("Looking up a field finds it exactly when it exists",
  "NexusEntry.get returns the data of the field found in the tree or the default; it finds every field whose first name occurs at unambiguous places only, gives the default when the name is absent, and looking up one value does not change the result of looking up another. A log, and a piece of metadata of the logs, is found by its name, else the default is given. Exceptions (findings): a field is missed when its name also occurs earlier as a group without data, any lookup removes the raw logs from the entry, and without logs a lookup in them raises whatever the default.",
  "every nested tree and field name",
  "all tree depths and shapes; mutation by a read",
  [S+"data/nexus_entry.py:NexusEntry.get", S+"data/nexus_entry.py:_find_val_path"])
p("Writing an entry to NeXus and reading it back preserves it",
  "For entries of groups, numeric and text datasets with text attributes, to_nexus followed by from_nexus gives the same tree of groups, datasets and attributes (plus links to signal and axes in data); other entries of the file are untouched. Exceptions (findings): lists of texts come back as one text, a single scan read by number loses its dataset name, saving over an existing entry keeps old datasets, and values that are not datasets are dropped.",
  "every well-formed entry tree",
  "all trees",
  [S+"data/nexus_entry.py:NexusEntry._write_recursively,_read_recursively"])
p("NeXus builder drops exactly the empty values",
  "NXdataset(None or '') is empty and every other value gives a dataset with its attributes; add_dataset/add_attribute skip empty values, every other dataset or attribute added under a key is found under that key until replaced, and adding never disturbs other keys. Exceptions (findings): an attribute with value 0 is skipped, and a dataset named attrs erases the attributes.",
  "every sequence of add_dataset/add_attribute",
  "all histories",
  [S+"data/nexus_builder.py:NXdataset", S+"data/nexus_builder.py:NXentry"])
p("SPICE header keys are preserved",
  "metadata_to_dict keeps one entry per distinct key, repeated keys joined with ', ' in file order, splits at the first '=' only, keeps the lines without '=' and records the time of the end of the scan. Exceptions (findings): a title line containing the closing words is lost, and blanks around a later '=' are removed.",
  "every list of header lines",
  "all header contents",
  [S+"data/spice_reader.py:metadata_to_dict"])
p("SPICE file lines are classified once",
  "read_spice_datafile sends every comment line to exactly one of header metadata, column names or summary/error messages, in order and losing none, gives every column its numbers, and refuses files without column headers. Exceptions (findings): a file of one column keeps one number only, and messages without a summary are lost.",
  "every file content",
  "all files",
  [S+"data/spice_reader.py:read_spice_datafile"])
p("Error messages and UB files of a scan are recorded",
  "The SPICE logs contain all columns, header entries and unrecognised lines of a scan, and the UB configuration whenever its file is in UBConf; the header entry ubconf is required. Exceptions (findings): a UB file only in UBConf/temp makes the reader fail, and error messages are recorded only if there are none.",
  "every scan file and folder layout",
  "all combinations of missing files",
  [S+"data/spice_reader.py:_create_spicelogs"])
p("Projecting a resolution ellipsoid is integration, in any order",
  "quadric_proj(M, i), for a diagonal element of at least 1e-8, is the Schur complement: the quadratic form of the minimum over coordinate i; it keeps symmetry and positive definiteness, inverts to the sub-block of the inverse, and projecting i then j equals projecting j then i. Exception (finding): with a smaller diagonal element it just drops the coordinate, which is not the projection.",
  "every symmetric positive definite matrix of size up to 4 and every index",
  "all positive definite matrices",
  [S+"instrument/resolution/ellipsoid.py:ResoEllipsoid.quadric_proj", S+"instrument/resolution/convolution.py:quadric_proj"])
p("Coherent width never exceeds incoherent width",
  "For a positive definite resolution matrix the coherent FWHM along each axis is positive and at most the incoherent FWHM, with equality iff the axis is uncorrelated with the others.",
  "every positive definite resolution matrix",
  "all positive definite matrices",
  [S+"instrument/resolution/ellipsoid.py:ResoEllipsoid.coh_fwhms,incoh_fwhms"])
p("The resolution ellipsoid means what Cooper and Nathans say, in every frame",
  "For positive divergences and mosaics, at a reachable point away from backscattering, the calculated resolution matrix is defined, symmetric positive definite, and its quadratic form is the least penalty, over all neutron paths, of the transmissions and mosaics that give the stated deviation of (Q, energy); R0 is positive and is the product of what the two arms let through, in closed form of wave number, Bragg angle, mosaics and divergences. The ellipsoid in the axes (h,k,l,en) or in user axes is the same form in the coordinates of these axes, centred at the requested point, also in the order the user gave; its first Q axis lies along Q. Exception, a finding: on a four-circle goniometer with sense '+' the ellipsoid in crystal axes is that of the reversed momentum transfer.",
  "every instrument configuration, sample, reflection and choice of axes",
  "all parameter values and paths",
  [S+"instrument/resolution/cooper_nathans.py:CooperNathans.calculate_at_hkle", S+"instrument/resolution/ellipsoid.py:ResoEllipsoid.project_to_frame"])
p("A resolution request returns one answer per point, in order",
  "cooper_nathans answers a list of points with the answers to its points asked one by one, in request order, so that a failed point does not disturb the others; a single-point request returns the bare element. A point has no answer (None) exactly when an energy is negative, the reflection has no motor angles (the triangle does not close, or a limit is exceeded), the monochromator or analyser cannot reflect the wavelength, or the axes are not three right-handed vectors and an energy. There is one error message per None, in order, which names its point.",
  "every instrument, every list of points of any length and every choice of axes",
  "all lists and failure patterns",
  [S+"instrument/tas.py:TAS.cooper_nathans", S+"instrument/resolution/resolution_calculator.py:ResolutionCalculator.generate_hkleief_list"])
p("Grid generation enumerates the full product",
  "generate_hkle returns exactly the Cartesian product of the grid ranges mapped through the axes, with en kept as energy wherever it stands, or raises ValueError for malformed axes/grid. Exceptions (findings): naming the energy twice raises IndexError and a zero step ZeroDivisionError.",
  "every grid and axes",
  "all grid shapes",
  [S+"instrument/resolution/resolution_calculator.py:ResolutionCalculator.generate_hkle"])
p("Bragg angle and energy of monochromator/analyser",
  "theta from get_theta_m/get_theta_a satisfies 2 d sin(theta)=lambda with the sign of the crystal sense and raises ValueError exactly when the energy is too low. Exception (finding): get_energy_from_bragg_angle does not invert get_bragg_angle_from_energy: the energy comes back multiplied by 81.81/9.045^2, too small by less than 1/40000.",
  "every energy and crystal",
  "all reals; constants differ in the fifth digit",
  [S+"instrument/tas.py:TAS.get_theta_m", S+"instrument/components/mono_ana.py:MonoAna"])
p("Path lengths are converted individually",
  "Each distance of the Distances component is converted from cm to Angstrom from its own value.",
  "every set of distances",
  "all values; every property read",
  [S+"instrument/components/component_base.py:Distances"])
p("Fit range keeps x, y and err aligned",
  "set_range keeps exactly the points with min<=x<=max, in order, with their own y and err; doing it twice with nested ranges equals doing the inner one; each added component gets a distinct prefix; x_to_plot gives evenly spaced values from the smallest to the largest x of the data, or between the given ends.",
  "every data set and sequence of ranges and added components",
  "all data lengths and histories",
  [S+"data/fit.py:Fit1D.set_range", S+"data/fit.py:Fit1D.add_signal,add_background,x_to_plot"])
p("Axis labels use each Miller letter once",
  "labels_from_projection for up to three nonzero projection vectors gives labels with distinct letters H, K, L and keeps the position of the energy axis; more than three vectors raise IndexError. Exception (finding): a zero vector raises IndexError.",
  "every triple of vectors",
  "all vectors",
  [S+"utilities.py:labels_from_projection"])
p("Oblique-axis transform is invertible",
  "The plotter's transformations tr and inv_tr are inverse of each other for every axis angle in (0,180) degrees.",
  "every angle and point",
  "all reals",
  [S+"plotter.py:Plot2D"])
p("The most likely facility is chosen",
  "LoadManager picks the first facility of maximal score; load returns one scan per file, under its name and in order, each the same as if loaded alone, and fails exactly when some file cannot be loaded alone. (Naming another supported facility should load its files or be refused; it returns None.)",
  "every folder content",
  "all score combinations",
  [S+"tavi_model/FileSystem/load_manager.py:LoadManager"])
p("Worker proxy is transparent",
  "Calling methods through a Proxy one after the other returns the values and leaves the state of the direct calls; no call can block; each caller's calls happen in call order; only the methods of the interface can be called. Exception (finding): the calls of two callers are not executed one at a time: their instructions interleave.",
  "every sequence of calls",
  "all schedules",
  [S+"multithreading/proxy.py:Proxy"])
p("Configuration file completion never loses user settings",
  "After start-up every field of the template exists in the user's configuration, every value the user had set is unchanged and can be read back as it means, nothing else is added, and doing it again changes nothing. Lines that start with # or ; are kept and do not disturb reading. Exception (finding): if any other line has no value, reading any field raises an error of the parser, although the file is accepted at start-up; the file can be read exactly if there is no such line.",
  "every user configuration and template",
  "all configurations, idempotence",
  [S+"configuration.py:Configuration.validate"])
p("Extracting data from a scan",
  "Scan.get_data returns the requested (else default) columns; norm_to multiplies values and errors by value/monitor; grid or tol gives exactly the rebinning of those columns, a bare number meaning a step over the whole range; grid wins over tol. Columns whose name contains an underscore, and count-file scans without norm_to, should be extractable too (they are not).",
  "every scan, every choice of axes, normalisation and rebin parameters",
  "all columns, all option combinations",
  [S+"data/scan.py:Scan.get_data"])
p("A group of scans behaves like one long scan",
  "In one dimension, and in two dimensions on a grid, combine_data of a group equals combine_data of a single scan holding the concatenated points; when rebinned the order of the scans does not matter; without norm_to scans counted in different ways are refused with ValueError. In two dimensions without a grid the scans are the rows, in their order. Without axes the default axes are used, and refused with ValueError if the scans do not agree on them. (Without a grid, scans with different numbers of points should be kept apart; when the total divides, rows mix points of different scans.) get_data of a group gives what each scan gives for the same request, in order, and raises as the first scan that raises.",
  "every group of scans, every order, every normalisation and rebin parameters",
  "all groups and permutations",
  [S+"data/scan_group.py:ScanGroup.combine_data,get_data"])
p("The window shows the clicked scan, its neighbours and every loaded file",
  "After any history of loads and clicks, clicking a loaded file shows that file with its position in the file list and the name of the file with the next scan number; the tree lists exactly the loaded files, one sorted node per folder. The updates wait in the queue of the window's event loop: in whatever order the window handles actions of the user and waiting updates, none is lost, doubled or reordered, the window settles on the state above, and no file can be clicked that is not loaded. (Leading zeros of the scan number should be kept, any loaded file should be listed and selectable, and an empty folder should load; they do not. Between the two updates of a click the window shows the successor of one file beside another file.)",
  "every history of loads and clicks, every order of completion, every interleaving of user actions and queued updates, every file name",
  "histories and schedules are unbounded",
  [S+"tavi_model/random_model.py:RandomModel.get_next_file", S+"tavi_model/dummy_model.py:TaviProject.set_selected_scan", S+"tavi_view/load_view.py:TreeViewWidget.add_tree_data", S+"tavi_presenter/load_presenter.py:LoadPresenter", S+"tavi_presenter/metadata_presenter.py:MetaDataPresenter", S+"tavi_presenter/random_presenter.py:RandomPresenter"])
p("A saved project opens as it was",
  "save(path) followed by open_file(path) gives back the same experiments with the same scans, each with all its datasets and attributes, and data/<signal>, data/<axes> show the plotted fields. (save() without a path should use the default file; it raises TypeError.)",
  "every project of conforming entries: any number of experiments and scans, any trees",
  "all projects and entry trees",
  [S+"data/tavi.py:TAVI.save,open_file,get_exp_id", S+"data/nexus_entry.py:NexusEntry.to_nexus,from_nexus"])
p("Instrument parts keep the parameters they are given",
  "A part built from a parameter dictionary has every given parameter as given and the default for every other one; names of computed quantities are refused; a crystal's spacing is the tabulated one of its type; update changes the named parameter only. (Changing the crystal type by update should change the spacing too; it does not.)",
  "every parameter dictionary, every part, every update",
  "all dictionaries; histories of updates",
  [S+"instrument/components/component_base.py:TASComponent.__init__,update", S+"instrument/components/mono_ana.py:MonoAna.__init__"])
p("Loading instrument parameters replaces exactly the named parts",
  "After load_instrument_params_from_json each part with a section in the file is rebuilt from its section and every other part is as before. After any sequence of files, some of them missing, unreadable or refused halfway, each part is the one of the last file that set it, and json_path is the last file that loaded completely. (The distances of the file should be readable as arms; they are not. The parts should be those of the file named by json_path; they are not: parts stay from earlier files, and a refused file leaves what it set before the error.)",
  "every parameter file and every previous instrument",
  "all files and histories",
  [S+"instrument/tas_base.py:TASBase._load_instrument_parameters,load_instrument_params_from_json"])
p("A fit weighs points by their error bars",
  "Of two candidate curves Fit1D prefers the one with the smaller sum of squared deviations in units of the error bars. (False: the errors themselves are passed as weights, so that every error bar counts as its inverse; the claim holds of exactly the data whose error bars are all equal.)",
  "every data set with errors, every pair of candidate curves",
  "all data and curves",
  [S+"data/fit.py:Fit1D.fit"])
p("A count file line becomes one channel per count command",
  "Reading the count file text of a polarised scan gives, for every preset command in order, its value, a channel name numbered by position and a label telling the settings in force; the channel names are all different. The text is accepted exactly if every preset command ends with a channel and a number; otherwise the answer is ValueError.",
  "every count file text",
  "all texts, any number of commands",
  [S+"data/spice_reader.py"])
p("A UB configuration file is read as written",
  "Reading a UB configuration gives every key its last value, as vector, number or text, and the modes under UBMode and AngleMode; XML files give the UB matrix. (A file of unknown format should be refused and every Mode line kept; they are not.)",
  "every configuration file",
  "all texts",
  [S+"data/spice_reader.py:read_spice_ubconf"])
p("A loaded data file is held as written",
  "A scan loaded by the load manager holds every column under the attribute of its name, every header entry under the attribute of its key, all messages of the instrument, and the UB configuration named in the header, exactly as its file says: every key with its last value, a vector or a number, the two modes, or of an XML file the nine numbers of its last matrix; a line that is not blank, a heading or one key=value is refused with ValueError. (Files with a column name starting with a digit, without points, or whose UB configuration is only in the tmp folder or has no UBConf folder should load; they fail. A value written right after the equals sign should be kept whole; it loses its first character. A table of one column should be kept whole; only its first number is.)",
  "every folder, every data file and UB configuration",
  "all texts and folder contents",
  [S+"tavi_model/FileSystem/Facilities/load_ornl.py:LoadORNL._load_files", S+"tavi_model/FileSystem/spice_reader.py"])
p("The entry built from a SPICE scan holds the columns and headers of the file",
  "In the NeXus entry built from a data file every known column is in its field with its numbers (counts as whole numbers), every column is in SPICElogs and can be looked up in the logs by its name, the headers are in their fields as text, numbers, lists of numbers or times, the three senses go to monochromator, sample and analyser, the plot attributes name the default signal and axis, counting channels of a count file each have their fields, and a non-empty value in a configuration file replaces the one of the data file. (A single number with a sign or an exponent in a header should be read; it raises UnboundLocalError. The UB configuration should be kept; it is dropped.)",
  "every data file, every instrument and sample configuration",
  "all headers, columns, channels and configurations",
  [S+"data/nexus_builder.py:spice_scan_to_nxdict,_formatted_spicelogs,_recast_type,NXdataset,NXentry"])
p("A folder of SPICE scans becomes one entry per scan, and the scan shows its columns",
  "Converting a folder gives exactly one entry for every data file of the folder, under the scan number in its name, each the entry of that file alone and marked with the data set IPTS<proposal>_<instrument>_<exp>; the data of a scan made from such an entry show every known column of the file under the name of its field, with its numbers, and can be read whenever the file has a column of points and the configuration files use no field names. (Only columns should be shown, and all of them; the unit cell is shown when the scan has six points, an unknown column is not shown, and with a detector column the detector channels are not shown. A file without the column Pt. raises TypeError.)",
  "every folder listing and file contents, every instrument and sample configuration",
  "all folders and files",
  [S+"data/nexus_builder.py:spice_data_to_nxdict", S+"data/nexus_entry.py:NexusEntry.from_spice,get_dataset_names", S+"data/scan.py:Scan.from_nexus_entry"])
p("A two-dimensional ellipse belongs to the axes asked for",
  "get_ellipse(axes=(i,j)) gives the section of the ellipsoid by the plane of the two axes, or its projection (least value over the other two axes), with the centre, labels and angle of these axes. (True for i < j; for i > j centre and labels are exchanged but not the matrix, and with the energy not the last axis the angle belongs to other axes. With h, k and l all given as integers on the axes h, k, l the energy of the centre loses its fraction, because it is put into an array of integers; with a float among them, or in another frame, the centre is the point asked for.)",
  "every ellipsoid with a positive definite matrix, every pair of axes",
  "all positive definite matrices",
  [S+"instrument/resolution/ellipsoid.py:ResoEllipsoid.get_ellipse"])
p("Scans combined along axes of reciprocal space and energy put each point in its cell",
  "combine_data_hkle, given four axes (three vectors that are not coplanar and the energy, in any order), two ranges and two pairs, gives one cell for each pair of centres on the two ranges, the first range along the first array; a cell holds the counts per monitor of exactly the points whose coordinates along the four axes are in the cell and strictly inside both pairs, whatever the order of the scans. A missing end of a range is the extent of the points kept. Anything else than two ranges, coplanar vectors, and a missing end without points are refused with ValueError. (With no range at all it is IndexError.)",
  "every list of scans, all numbers in them, every order of axes and grid",
  "all positions of points and all orders of the axes",
  [S+"data/scan_group.py:ScanGroup.combine_data_hkle"])
p("The convolution with the resolution sums the model over the resolution ellipsoid",
  "convolution gives r0 sqrt(det A)/(2 pi)^2 times the sum, over the points of a mesh inside the projected ellipsoid of three standard deviations, of intensity times exp(-x A x/2), times the volume of a cell; the box of the mesh contains every displacement within three standard deviations and the mesh has as many cells as the energy steps ask for. It is 0 when on a first mesh of ten cells every energy is below the window, every one above it, or every weight beyond 125, and then no point of that mesh is within three standard deviations. It is linear in the intensity and in r0. calculate gives one value for each point in order, whatever the number of workers, nan for a point that cannot be reached. (The volume of the cell is too small when the axes are correlated: it is the box along the principal axes, not the box of the mesh.)",
  "every positive definite resolution matrix, every dispersion and intensity with a fixed number of bands, every position, every resolution factor and limit of steps",
  "all matrices and all model functions",
  [S+"instrument/resolution/convolution.py:convolution,calculate,generate_pts,get_max_step,incoh_sigma_qs,incoh_sigma_en,coh_sigma"])
p("A fit with the resolution sees the curve at every point through the resolution of that point",
  "In a ConvFit1D the model at the data points is the sum of the Gaussian peaks and constant backgrounds that were added, in order, under the prefixes s1_, s2_, ..., b1_, b2_, ...; at every point this sum is convolved with a Gaussian of the factor and width given for that point (10000 terms within five standard deviations). The convolution is linear, keeps the order of curves, moves with the curve, leaves a symmetric curve symmetric, and turns a constant into r0 times the constant times a number that depends on neither point nor width. Without a background, guess() gives every parameter that fit needs. (For points given as integers every component is truncated to a whole number at every point. With a fit range the resolutions are not cut with the points, so a point is seen through the resolution of another one. The curve cannot be drawn at x_to_plot() with fewer than 100 points: IndexError. With a background the guess lacks its parameter and fit raises ValueError. A background of another name is accepted and makes every evaluation fail.)",
  "every data set, all resolutions of non-zero width, every history of added components and ranges, all parameters",
  "all curves, widths, histories and values",
  [S+"data/convfit.py:conv_1d,conv_constant,ConvFit1D"])
p("A scan describes itself as its file does",
  "Scan.from_spice gives the scan of the one data file of that number, with the data of that file. Its scan_info gives the experiment, the number, the title, the axes under their names in the scan, the times, and the preset: one channel and value, or the channels of a count file with values and labels. Its instrument_info gives the crystals, the senses and the collimation, its sample_ub_info the name, type, lattice, UB matrix and plane normal, and for a crystal the vectors u and v that UB sends to the two directions of the plane. Several files of one number are refused. (Scan number 10000 and above is given modulo 10000; of more than twelve channels twelve are given; without a normal or countfile preset scan_info raises UnboundLocalError, without an axis KeyError; without a UB matrix sample_ub_info raises AttributeError; the name of the instrument stays empty; of several files that share the piece of the name used as scan name, the last one is used.)",
  "every folder, file and configuration that does not reuse the names of the fields looked up, every scan number",
  "all files, headers and configurations",
  [S+"data/scan.py:Scan.from_spice,__init__,scan_info,sample_ub_info,instrument_info,get_data_columns", S+"data/nexus_entry.py:NexusEntry.get"])
p("A scan saved to a NeXus file and read back is the same scan",
  "An entry written with to_nexus and read with from_nexus answers every get of a field as before; a list of numbers comes back as an array, a list of texts as one text. The scan made from it has the same name, the same data under every name whose content is stored as it is read, and the same scan_info, sample_ub_info and instrument_info. This holds for an entry just built, whose plotted fields appear under data only in the file, and for one that already has them. (A scan read by its number has no scan_info: the attributes of the entry are not read, KeyError.)",
  "every entry of groups and datasets whose contents suit their declared types and whose plotted names are unambiguous, every key, every way texts are shown",
  "all nested entries and all keys",
  [S+"data/nexus_entry.py:NexusEntry.to_nexus,from_nexus,get,get_dataset_names", S+"data/scan.py:Scan.from_nexus,scan_info,sample_ub_info,instrument_info"])
p("The ellipse drawn for a resolution ellipsoid is where the resolution has fallen to half its maximum",
  "Every point ResoEllipse.get_points gives lies where the two-dimensional resolution is exactly half its maximum; the points go all round the centre and close; for an ellipse made by coherent_cut or project of an ellipsoid, the points are those of the cut or the projection of the four-dimensional ellipsoid at half its maximum; and drawn on axes that are not at right angles they are moved to the place that point has on those axes. (The centre is that of C68, with the energy truncated for integers h, k, l on the axes h, k, l.)",
  "every symmetric positive definite matrix, centre, angle between the axes and number of points",
  "A picture is looked at, not compared with the ellipsoid it came from; a test can count points or look at one matrix.",
  [S+"instrument/resolution/ellipse.py: ResoEllipse.get_points", S+"instrument/resolution/ellipsoid.py: ResoEllipsoid.get_ellipse", S+"plotter.py: Plot2D.plot"])
p("A plot shows everything put on it, once and in order, however plots are built and drawn",
  "Plot1D.plot and Plot2D.plot draw exactly the curves, fits, fit components, resolution bars, meshes and ellipses that were added to that plot, each as often as it was added and in that order, with its own data and the keywords given for it last; title, axis names, limits and legend are those of what is on the plot or those the user set; drawing a plot any number of times, at any time, does not change what any plot draws later.",
  "every history of adding to, naming, limiting and drawing any number of plots that may share scans",
  "The keywords live in the shared scan objects and drawing changes the plot itself; which histories matter cannot be enumerated.",
  [S+"plotter.py: Plot1D, Plot2D"])
p("A folder of SPICE files turned into NeXus files loses nothing of the scans",
  "convert_spice_to_nexus writes one NeXus file for every scan of the SPICE folder; the scan read back from that file has the name, the data columns, the scan_info, the sample_ub_info and the instrument_info of the scan read from the SPICE file (lists of texts become one text). The files are in the folder given, or, if none is, in a folder beside the SPICE folder named after proposal, instrument and experiment. Whatever happens, no other file is touched. (A folder given without a final slash gets no file: its name is put before the names of the files. A final slash of the SPICE folder moves the new folder into it. A scan that does not say what to plot stops the conversion: later scans are not written.)",
  "every folder of SPICE files with plain names, every configuration without lists other than the matrix and vectors of the sample, every folder given, all other files on the disk",
  "all files with all headers and columns; what is compared goes through two file formats",
  [S+"convert_spice_to_nexus.py:convert_spice_to_nexus", S+"data/nexus_entry.py:NexusEntry.from_spice,to_nexus,from_nexus", S+"data/scan.py:Scan.from_nexus"])
p("A scan shown against del_q shows how far each point is from the middle one in Q",
  "Scan.get_data with an x-axis like del_q(s1) gives the y-column against the distance in Q from the middle point (of two middle points, the first). Q is the recorded q or follows from ei, ef (or en) and the scattering angle by the law of cosines. If the length of Q changes by more than 1.1e-4 the distance is the difference of lengths; otherwise it is the arc the transfer moves on when the named angle turns: it has the sign of the turn, and exceeds the true distance by at most q t^3/24. (Without an angle in brackets a scan at constant q raises AttributeError: s1 is not the default. A q recorded with an error above 1.1e-4 makes the angle be ignored.)",
  "every scan with all numbers in it, every angle and number of points",
  "all lengths, angles and numbers of points; the meaning of the numbers is geometry",
  [S+"data/scan.py:Scan._get_del_q,get_data", S+"utilities.py:en2q,get_side_from_triangle"])
p("Projects used side by side keep their scans and selections apart",
  "After any sequence of load_scans and select_scans on any number of TaviProject objects, a project holds the scans of its own last load that succeeded; a load that raises changes nothing. A selection holds exactly the names of the scans that meet the conditions, sorted, under the name it was given (or as the data to process), and changes no other selection. (Two things do not hold: select_scans raises AttributeError unless the script sets scan_list itself, since loading does not; and all projects share one dictionary of shown selections, so a selection made in one shows in every other, unless the script gives a project a dictionary of its own; then it is its own.)",
  "every history of creating projects, loading from any files, selecting with any conditions, and setting scan_list or the dictionary of selections",
  "all histories of operations on several objects that may share what they hold",
  [S+"tavi_model/tavi_project.py:TaviProject.load_scans,select_scans", S+"tavi_model/tavi_data.py:TaviData"])
p("The figure of all ellipses of an ellipsoid shows each of them whole",
  "ResoEllipsoid.plot_ellipses draws six panels, one for each pair of the four axes, in a fixed order; every panel has the projection of the ellipsoid dashed and its cut solid, on axes named after the pair, with limits that contain every point of both ellipses. (On axes not at right angles this fails: the limits are set in the coordinates before the ellipses are sheared, so far from the origin the panel shows nothing of them.)",
  "every symmetric positive definite matrix, every centre and every choice of axes",
  "all ellipsoids; a figure is looked at for one of them",
  [S+"instrument/resolution/ellipsoid.py:ResoEllipsoid.plot_ellipses,get_ellipse", S+"plotter.py:Plot2D"])
p("A plot of a scan shows every channel it was counted in, each under its own normalisation",
  "Scan.plot of a scan with a count file shows one curve for every row of the count file, in order: the column detector_k over the default x-axis, every count and error multiplied by the preset of row k over the count of the channel of row k (or rebinned with that normalisation if a grid or a tolerance is given), labelled with the number of the scan and the label of the row; the vertical axis says counts per which preset. It is the curve that naming the channel with this normalisation shows. If a column is missing there is no plot. Any other scan gives one curve, with the columns and normalisation asked for, or the defaults, in the data and in the labels. (With a count file, an x-axis or normalisation asked for without naming a channel is silently ignored, and a channel named without a normalisation gives TypeError.)",
  "every scan, all counts, every number of channels, every grid and tolerance",
  "all numbers of channels and all counts",
  [S+"data/scan.py:Scan.plot,get_data", S+"data/scan_data.py:ScanData1D.make_labels"])
p("A resolution calculation is refused exactly for an instrument that is not fully described",
  "TAS.cooper_nathans gives an answer only if the instrument has a monochromator and an analyser whose mosaics are not missing and not negative and whose senses are + or -, collimators whose eight divergences are numbers that are not negative, and a goniometer sense + or -; every such instrument passes. Otherwise the whole request is refused, whatever the points: AttributeError means that something is missing, ValueError that a number is negative or a sense wrong, TypeError that a divergence is not a number. A fully described instrument is refused for a sample without UB information (TypeError) or without UB matrix (AttributeError). (Not negative is not enough: with a mosaic or divergence of zero the instrument passes and no point gets an ellipsoid.)",
  "every instrument with any attributes, every request",
  "all combinations of missing, wrong and right parameters",
  [S+"instrument/resolution/resolution_calculator.py:ResolutionCalculator.validate_instrument_parameters", S+"instrument/tas.py:TAS.cooper_nathans"])
p("Comparing motor positions sees every motor, to a tenth of a degree",
  "Two MotorAngles are equal (==) exactly when every motor of the first stands in the second within 0.1 degrees plus a hundred-thousandth of the second value; the first motor that tells them apart decides, between False and TypeError if the second has no such motor. Positions with the same motors, none more than 0.1 degrees apart, are equal in either order; motors within a full turn and more than 0.1036 degrees apart make them unequal. Peaks are equal when their indices are exactly equal and their angles as above. (Equality should be symmetric, transitive, the opposite of !=, and the same for angles a full turn apart; it is none of these.)",
  "every two positions, with any motors present or missing",
  "all angles and all combinations of missing motors",
  [S+"utilities.py:MotorAngles.__eq__,Peak"])
p("A sample made from a file or from a scan is the one described there",
  "Sample.from_json gives a sample with the lattice of the file, and a UB matrix, plane normal and in-plane reference which read back as written there, in the convention named there (SPICE if none); the same crystal written in either convention is placed the same way. A file is accepted exactly if its six lattice parameters are there and in range, its matrix (if any) has nine numbers, and its convention is known when there is something to convert; a parameter that is missing gives KeyError, one that is not a number TypeError, a lattice out of range, a matrix that has not nine numbers or (in the convention of SPICE) a vector that has not three ValueError. A shape with its three sizes, and a mosaic with both directions, are taken over. Sample.from_scan gives the lattice, UB matrix, plane normal and mosaic of the data file; a file and a scan with the same numbers describe the same sample to everything that calculates with it. (A shape without all its sizes, or one mosaic alone, is dropped silently, and the type is never read. A scan without plane normal gives TypeError; one without mosaic a sample without mosaic, not the usual 30 minutes; no in-plane reference is taken from a scan. The number that the NeXus entry calls degrees is used in minutes of arc. A scan without lattice constants gives TypeError, one with another number of them than six UnboundLocalError.)",
  "every JSON file with numbers, texts and lists of numbers, every data file and its headers",
  "all files and combinations of members present and missing, all numbers",
  [S+"sample.py:Sample.from_json,from_scan,set_shape,set_mosaic", S+"ub_algorithm.py:UBConf"])
p("A resolution curve has the width, centre and intensity it was given",
  "ResoCurve.generate_curve gives the number of points asked for, evenly spaced from the asked number of standard deviations below the centre to as many above, and at every point r0 times the density of the normal distribution with that centre and full width at half maximum: the heights fall with the distance from the centre, half a width away they are half the maximum, and they read the same from both ends. What is plotted is this curve over three standard deviations in 100 points, with the legend, labels and title that were set. Without a width, a centre or an intensity it raises. (The centre has to be set as cen: the attribute center of a new curve is never read, so a new curve with a width and an intensity raises AttributeError. Without an intensity the points are replaced and the heights are not.)",
  "every centre, intensity and width other than zero, every number of points from two and of standard deviations",
  "all real parameters",
  [S+"instrument/resolution/curve.py:ResoCurve.generate_curve,generate_plot"])
p("An exception while saving or converting costs only what was not written yet",
  "If TAVI.save is stopped by an exception at any scan, the file opens, and has every experiment and scan written before in order and with their contents, at most a part of the failing scan under its own name, and nothing of the later ones; no other file changes, and the exception reaches the caller. A conversion of a folder that is stopped at any scan leaves the files of the scans before as the whole conversion makes them, does not touch those of the later scans or any other file, and raises. Run again after that, the conversion writes every scan so that every value is read back at its place as if written for the first time: an entry written into a file that holds all or a beginning of it is there whole afterwards, other entries are as before, and it can be written again. (An OSError while saving, such as a full disk at any scan or a file that cannot be created, is only printed: save returns as if the project were saved. The file of an earlier save is gone in any case: what it held has no influence on what is left. A different entry written over an old one of the same name keeps what the new one does not have, such as the old title.)",
  "every project and folder, every scan at which the exception comes, whatever was written of that scan, every exception",
  "all crash points",
  [S+"data/tavi.py:TAVI.save,open_file", S+"convert_spice_to_nexus.py:convert_spice_to_nexus", S+"data/nexus_entry.py:NexusEntry.to_nexus"])
p("The parameters of a fit are those of the last fit that succeeded",
  "After any history of ranges, added components and fits, Fit1D.params gives the parameters of the last fit that succeeded with error bars, whatever failed since; before the first success it gives a guess, in which every parameter of every component has the value lmfit guesses for that component from the points of the moment, and a fit with this guess is handed to lmfit. A fit gets the points in the range, their errors (if asked) and the components in order as they are at that moment; one that lmfit does not finish, or finishes without error bars, raises ValueError and leaves the parameters as they were, and so does one with a parameter missing; without components it raises AttributeError. After a success the range can be changed and the fit repeated. ConvFit1D behaves alike but also accepts a fit without error bars. (After a success a component cannot be added and fitted: params still are those of the old fit, without values for the new component, and every fit with them raises ValueError.)",
  "every data set, every history of ranges, components, successful and failed fits, every lmfit that answers with the names it was given",
  "all histories and all outcomes of the optimiser",
  [S+"data/fit.py:Fit1D.params,guess,fit", S+"data/convfit.py:ConvFit1D.params,fit"])
p("An aligned instrument reads back the peaks it was aligned with",
  "After TAS.calculate_ub_matrix with two peaks, calculate_hkl_from_angles at the position of the first gives a positive multiple of its Miller indices, and at the position of the second a point of the plane of the two, on the side of the second; both are given exactly if and only if the lengths of the two measured vectors and their distance are those which the lattice of the sample gives for the two reflections and their difference. The alignment succeeds exactly when neither the indices nor the measured vectors are collinear. With one peak and the scattering plane that contains it the peak is read as a positive multiple of its indices, exactly if and only if the measured length is that of the lattice. With three peaks whose measured vectors are not in one plane all three are read back exactly, and so are four or more peaks that fit together, whatever lattice the sample had before. An instrument with a Huber table aligned with two peaks and driven to any reflection of their plane reads that reflection, and one with a four-circle table of negative sense any reflection it can be driven to. Aligning again, with three or more peaks that are read exactly already, changes neither the UB matrix nor the lattice. The energies and the goniometer stay as they were. (Three peaks measured in one plane, whose indices are not in one plane, should be refused; they are accepted, the sample is given the lattice 1, 1, 1, 90, 90, 90, and every reading after that raises.)",
  "every instrument and goniometer, every sample with a possible cell, all peaks at all positions, every reflection in the plane",
  "all real angles, indices and cells",
  [S+"instrument/tas.py:TAS.calculate_ub_matrix,calculate_hkl_from_angles,calculate_motor_angles", S+"sample.py:Sample.get_q_norm,update_lattice_parametres_from_g_star_mat"])
p("Combining scans with the combine manager gives no bins",
  "CombineManager.combine_1d, asked to combine any scans over any axes, step and range, should return the sums of the points in each bin; it returns for no input. When all scans have both columns and numpy and scipy do their part it raises TypeError, because its argument range hides the built-in function that it calls; when a scan lacks a column it raises AttributeError, also if earlier scans have it.",
  "every list of scans, axes, step and range, every outcome of the binning",
  "all inputs: no example that fails shows that none succeeds",
  [S+"tavi_model/combine_data.py:CombineManager.combine_1d"])
p("Starting the program keeps the configuration, whatever state the file is in",
  "The program starts exactly when the template is there and is a configuration, and the user's file is missing or is one too. The first start makes the file from the template; after any number of starts every setting of the user is as it was, every field of the template is there, and after the first start nothing changes any more. The help page is the one the user has set, else that of the template. The template is never changed, nor is a user's file that cannot be read. A start broken off at any moment leaves files with which the next start succeeds, and all settings are there unless the file was being written. Any number of copies of the program started together, in any order of their steps, leave the file as one start does and none fails, if none reads the file while another writes it. (The file is rewritten at every start, and a start broken off then loses the user's settings for good; so can two copies started together. A file that is no configuration, for example with a line before the first heading, should end the program with the message for problems with the file, as one that cannot be decoded does; the exception of the parser reaches the caller.)",
  "every template and user file, present, missing or damaged, every number of starts, every moment at which a start is broken off, every number of copies and schedule",
  "all histories, crash points and schedules",
  [S+"configuration.py:Configuration,get_data", S+"tavimain.py:Tavi", S+"help/help_model.py:help_function"])
with open(os.path.join(os.path.dirname(__file__), "..", "properties.jsonl"), "w") as f:
    for q in P:
        f.write(json.dumps(q) + "\n")
print(len(P))
