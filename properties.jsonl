{"id": "C01", "title": "Unit conversions are a consistent groupoid", "statement": "For temperature, energy, pressure, frequency, length and volume: converting a value to its own unit returns it; converting u->v and back v->u returns it; converting u->v->w equals converting u->w directly (exact arithmetic).", "quantifier": "all real values, all pairs/triples of accepted unit spellings (any letter case), all positive physical constants", "why_tests_cant": "a test checks a few numbers for a few unit pairs; the claim is over every value, every pair and triple of units and any CODATA set", "anchors": ["quantas/utils/physics/units.py:convert_temperature", "quantas/utils/physics/units.py:convert_energy", "quantas/utils/physics/units.py:convert_pressure", "quantas/utils/physics/units.py:convert_frequency", "quantas/utils/physics/units.py:convert_lenght", "quantas/utils/physics/units.py:convert_volume"]}
{"id": "C02", "title": "Unit names are recognised case-insensitively and everything else is rejected", "statement": "A conversion raises exactly when one of its two unit names, lower-cased, is outside the finite accepted set for that quantity; changing letter case never changes the result. The accepted set for energies does not contain the documented names 'hartree' and 'rydberg', so convert_energy rejects them.", "quantifier": "all strings used as unit names, all values", "why_tests_cant": "the set of strings is infinite; tests only try names their author thought of (and the documented 'hartree' was not tried)", "anchors": ["quantas/utils/physics/units.py:convert_energy", "quantas/utils/physics/units.py:convert_temperature", "quantas/utils/physics/units.py:convert_pressure", "quantas/utils/physics/units.py:convert_frequency", "quantas/utils/physics/units.py:convert_lenght", "quantas/utils/physics/units.py:convert_volume"]}
{"id": "C03", "title": "Unit conversions preserve order and differences scale linearly", "statement": "Every unit conversion is strictly increasing, and every conversion except temperature fixes zero and is linear; temperature conversions map differences linearly.", "quantifier": "all values and all pairs of accepted units", "why_tests_cant": "order preservation is a statement over all pairs of reals", "anchors": ["quantas/utils/physics/units.py"]}
{"id": "C04", "title": "energy/volume <-> pressure conversions are mutually inverse and agree with the scalar converters", "statement": "energy_to_pressure followed by pressure_to_energy with the same units returns the same value and vice versa, and changing any one unit in energy_to_pressure is the same as converting the operand with convert_energy, convert_volume or convert_pressure first.", "quantifier": "all values and all accepted combinations of energy, volume and pressure units", "why_tests_cant": "3x2x8 unit combinations times all reals", "anchors": ["quantas/utils/physics/units.py:energy_to_pressure", "quantas/utils/physics/units.py:pressure_to_energy"]}
{"id": "C05", "title": "Which conversions leave the caller's array untouched", "statement": "convert_* never writes to an array the caller passes in. energy_to_pressure and pressure_to_energy do: when handed a float array they overwrite its contents with the converted values, and when a later unit name is unknown they raise after having already scaled the caller's data.", "quantifier": "all heaps of arrays, all argument arrays and unit names, including failing calls", "why_tests_cant": "aliasing/mutation is a statement about every other reference in the program state", "anchors": ["quantas/utils/physics/units.py:energy_to_pressure", "quantas/utils/physics/units.py:pressure_to_energy", "quantas/utils/physics/units.py:convert_energy"]}
{"id": "C06", "title": "Chemical symbol table is a bijection", "statement": "symbol2number(number2symbol(Z)) = Z for every atomic number 0..118 and number2symbol(symbol2number(s)) = s for every accepted symbol; other symbols and numbers above 118 raise; negative numbers down to -119 silently wrap around.", "quantifier": "all integers and all strings", "why_tests_cant": "all integers/strings; wrap-around for negative numbers is never exercised by tests", "anchors": ["quantas/utils/chemistry/__init__.py", "quantas/utils/chemistry"]}
{"id": "C07", "title": "Harmonic thermodynamic identity F = U - TS", "statement": "For any phonon band structure, weights and temperatures, the vibrational Helmholtz energy returned equals zero-point plus thermal energy minus T times the returned entropy (with the kJ/J factor), entry by entry.", "quantifier": "all band arrays (any number of q-points, modes, volumes), all weights, all temperatures >= 0", "why_tests_cant": "infinite family of real inputs; the five quantities are computed by five independent loops", "anchors": ["quantas/utils/physics/statistical_mechanics.pyx"]}
{"id": "C08", "title": "Heat capacity and entropy are the temperature derivatives of the returned energies", "statement": "At every T>0 the returned isochoric heat capacity is 1000 times the derivative of the returned thermal energy and the returned entropy is -1000 times the derivative of the returned vibrational free energy, and T dS/dT = Cv.", "quantifier": "all bands, weights and temperatures > 0", "why_tests_cant": "a derivative is a limit; finite tests cannot establish it", "anchors": ["quantas/utils/physics/statistical_mechanics.pyx"]}
{"id": "C09", "title": "Physical bounds of harmonic functions", "statement": "With non-negative weights: thermal energy, entropy and heat capacity are >= 0, heat capacity never exceeds (number of modes)*(sum of weights)*R (Dulong-Petit), thermal energy never exceeds the classical value, and the vibrational free energy never exceeds the zero-point energy.", "quantifier": "all bands, non-negative weights, temperatures >= 0", "why_tests_cant": "inequality over all reals", "anchors": ["quantas/utils/physics/statistical_mechanics.pyx"]}
{"id": "C10", "title": "Zero temperature is the continuous limit", "statement": "At T = 0 the special-cased values returned (Uth = S = Cv = 0, F = Uzp) are exactly the limits of the values returned for T -> 0+.", "quantifier": "all bands and weights", "why_tests_cant": "limit statement", "anchors": ["quantas/utils/physics/statistical_mechanics.pyx"]}
{"id": "C11", "title": "Monotonicity in temperature", "statement": "Thermal energy and entropy are non-decreasing and the vibrational free energy is non-increasing in T over T >= 0, strictly when some mode has positive frequency and positive weight.", "quantifier": "all bands, non-negative weights, all pairs of temperatures", "why_tests_cant": "all pairs of reals", "anchors": ["quantas/utils/physics/statistical_mechanics.pyx"]}
{"id": "C12", "title": "Imaginary and zero-frequency modes are inert", "statement": "Modes with frequency <= 0 contribute exactly zero to every harmonic quantity, so replacing the value of any non-positive frequency by another non-positive one or appending such modes changes no result.", "quantifier": "all bands", "why_tests_cant": "universal over bands", "anchors": ["quantas/utils/physics/statistical_mechanics.pyx"]}
{"id": "C13", "title": "Parallel band sums are independent of thread schedule and linear in the weights", "statement": "The array of results is the same for every order in which the parallel loop executes its temperature iterations, each row depends only on its own temperature, the sum is invariant under permuting q-points together with their weights and permuting modes, and it is linear in the weights and additive over concatenation of q-point sets.", "quantifier": "all schedules (permutations of the iteration set), all inputs", "why_tests_cant": "number of schedules is factorial; races are not visible to tests", "anchors": ["quantas/utils/physics/statistical_mechanics.pyx"]}
{"id": "C14", "title": "Enthalpy and Gibbs energy are the Legendre shifts of U and F", "statement": "H - G = U - F for every temperature and pressure, H and G are affine in pressure with slope equal to the volume, both coincide with U and F at zero pressure, in the units of the call.", "quantifier": "all energies, volumes, pressures", "why_tests_cant": "all reals", "anchors": ["quantas/utils/physics/thermodynamics.pyx:enthalpy", "quantas/utils/physics/thermodynamics.pyx:gibbs"]}
{"id": "C15", "title": "Adiabatic bulk modulus relations", "statement": "KS >= KT, KS = KT at T = 0 or where Cv = 0, KS = KT*(1 + alpha*gamma*T) with the Grueneisen parameter returned by the same library, and KS/KT = Cp/Cv when Cp is computed as Cv + alpha^2 KT V T.", "quantifier": "all temperatures, expansion coefficients, positive volumes, bulk moduli and heat capacities", "why_tests_cant": "all reals", "anchors": ["quantas/utils/physics/thermodynamics.pyx:adiabatic_bulk_modulus", "quantas/utils/physics/thermodynamics.pyx:gruneisen_parameter", "quantas/qha/qha.py:_finalize_run"]}
{"id": "C16", "title": "Every pressure-volume equation of state is anchored at the reference state", "statement": "For Murnaghan, Birch-Murnaghan (orders 2,3,4), natural strain (2,3,4), Vinet and Tait (2,3,4): P(V0) = 0, -V dP/dV at V0 = K0, and dK/dP at V0 equals the K' the parameter vector carries after the call.", "quantifier": "all positive V0, K0 and all K', K'' in the domain of the form", "why_tests_cant": "derivative statements at all parameters", "anchors": ["quantas/eosfit/utils/pv_eos.py"]}
{"id": "C17", "title": "Implied higher derivatives of fitted EoS", "statement": "The K'' that a lower-order fit writes into the parameter vector is the actual d2K/dP2 of the curve it evaluates: true for Murnaghan-Tait-BM-natural strain relations used by the library, false for Vinet where the constant 19/46 replaces 19/36.", "quantifier": "all positive V0, K0 and K'", "why_tests_cant": "second-derivative statement at all parameters; the wrong Vinet constant does not affect pressures and no test sees it", "anchors": ["quantas/eosfit/utils/pv_eos.py"]}
{"id": "C18", "title": "Order reduction of equations of state", "statement": "A lower-order EoS equals the next higher order with the implied coefficient substituted; Tait with K''=0 equals Murnaghan at every volume; BM and natural strain order 3 with K'=4 / K'=2 equal order 2.", "quantifier": "all volumes and parameters", "why_tests_cant": "functional equality over reals", "anchors": ["quantas/eosfit/utils/pv_eos.py"]}
{"id": "C19", "title": "Energy EoS: minimum, curvature, and consistency with the reported pressure", "statement": "For the four E(V) forms E(V0) = E0, dE/dV(V0) = 0 and V0 d2E/dV2(V0) = K0, and -dE/dV is the corresponding third-order pressure EoS with the implied K''. The pressure method agrees with -dE/dV for Murnaghan and Vinet at every volume, but not for Birch-Murnaghan and Poirier-Tarantola, where K'' is left at 0.", "quantifier": "all volumes > 0 and all parameters (K' != 1)", "why_tests_cant": "identity between functions of a real variable", "anchors": ["quantas/qha/utils/ev_eos.py", "quantas/eosfit/utils/pv_eos.py"]}
{"id": "C20", "title": "Murnaghan and Tait are invertible, P decreases with V", "statement": "On V > 0 Murnaghan pressure is strictly decreasing for K0>0,K'>0 and V0*(1+K'P/K0)^(-1/K') inverts it; likewise Tait with its documented inverse; so a fitted curve assigns one volume to a pressure.", "quantifier": "all volumes and parameters", "why_tests_cant": "all pairs of reals", "anchors": ["quantas/eosfit/utils/pv_eos.py:Murnaghan.eos", "quantas/eosfit/utils/pv_eos.py:Tait.eos"]}
{"id": "C21", "title": "Weighting scheme selected by the EoS fit", "statement": "Which of least squares and orthogonal distance regression is used is determined only by whether volume uncertainties are present; pressure uncertainties are never consulted, so data with only pressure uncertainties are fitted as unweighted-volume OLS and data with both or only volume uncertainties use ODR; the parameters freed in the fit are exactly those of the order.", "quantifier": "all data sets (any combination of uncertainties present/absent) and orders", "why_tests_cant": "needs every combination of optional columns and the code path that uses them", "anchors": ["quantas/eosfit/utils/pv_eos.py:EOS.check", "quantas/eosfit/utils/pv_eos.py:EOS.fit"]}
{"id": "C22", "title": "Normalised-pressure analysis and the caller's parameter vector", "statement": "Computing normalised pressure/strain for second-order fits changes the fitted parameter array owned by the caller when a linear EoS is analysed; otherwise the array is unchanged.", "quantifier": "all parameter vectors, orders and EoS types", "why_tests_cant": "aliasing", "anchors": ["quantas/eosfit/utils/pv_eos.py:BirchMurnaghan.normalize", "quantas/eosfit/utils/pv_eos.py:Vinet.normalize", "quantas/eosfit/utils/pv_eos.py:NaturalStrain.normalize"]}
{"id": "C23", "title": "Polynomial interpolation evaluates the fitted polynomial", "statement": "For every coefficient table the multi-row interpolator returns, at every abscissa, the value of the polynomial with those coefficients; it agrees with the single-row path and is linear in the coefficients, so interpolating U, TS and F separately preserves F = U - TS.", "quantifier": "all coefficient tables, all abscissae", "why_tests_cant": "all tables and reals", "anchors": ["quantas/utils/math/fast_math.pyx", "quantas/utils/math/polynomials.py:interpolate"]}
{"id": "C24", "title": "Polynomial minimiser returns only genuine minima at the target pressure", "statement": "Every volume returned by the polynomial minimisation with pressure addendum P is a point with F'(V) + P = 0 and F''(V) > 0, a strict local minimum of F + PV; every such simple minimum is returned; when there is none an empty array is returned and the caller raises; the volume used is the first of these (the smallest one), which need not be the one with the lowest F + PV.", "quantifier": "all polynomials and pressures", "why_tests_cant": "all polynomials", "anchors": ["quantas/utils/math/polynomials.py:find_polynomial_minimum", "quantas/qha/qha.py:minimize_volume"]}
{"id": "C25", "title": "Finite-difference derivative is exact on lines and never fails on valid grids", "statement": "The derivative helper returns the exact slope for affine data on any strictly monotone grid; for quadratics it is exact at an interior point precisely when that point is midway between its neighbours (so on uniform grids); it is linear in Y; it returns values exactly when both arrays have the same length of at least two, and reports a length error exactly when both have at most one point.", "quantifier": "all grids and data", "why_tests_cant": "all grids", "anchors": ["quantas/utils/math/derivative.py:derivative"]}
{"id": "C26", "title": "Crystal-system detection is total and sound", "statement": "Every symmetric stiffness matrix gets exactly one symmetry name: the first of the list whose tested relations (entries zero or equal within the tolerance) hold; the name 'orthorhombic', which selects the fast formulas, therefore guarantees that all twelve coupling entries are negligible. A matrix whose C12 and C21 differ gets no name and raises. 'tetragonal_high' is never returned.", "quantifier": "all 6x6 matrices", "why_tests_cant": "all matrices", "anchors": ["quantas/soec/utils/symmetry.py"]}
{"id": "C27", "title": "Crystal-system detection on genuine crystal classes", "statement": "For every choice of elastic constants: cubic matrices are labelled cubic, hexagonal ones hexagonal (or cubic within tolerance), low trigonal and low tetragonal ones correctly, orthorhombic and monoclinic ones correctly unless uniaxial within tolerance, others triclinic. Tetragonal crystals of classes 4mm, -42m, 422, 4/mmm are labelled trigonal_high, trigonal crystals of classes 32, 3m, -3m are labelled trigonal_low, and arbitrary C14, C15, C25 do not prevent the label hexagonal.", "quantifier": "all elastic constants of each class", "why_tests_cant": "all real elastic constants", "anchors": ["quantas/soec/utils/symmetry.py"]}
{"id": "C28", "title": "Voigt <-> tensor representation is faithful", "statement": "The rank-4 stiffness and compliance tensors built from 6x6 matrices have all minor symmetries, have the major symmetry when the matrix is symmetric, and contract to the symmetric identity when compliance is the matrix inverse.", "quantifier": "all 6x6 matrices", "why_tests_cant": "identities over 36 real unknowns and 81 components", "anchors": ["quantas/soec/utils/soec_obj.py:SOEC"]}
{"id": "C29", "title": "Bulk, shear and Young averages", "statement": "For every positive definite stiffness matrix with inverse compliance: 0 < Reuss <= Hill <= Voigt for the bulk, shear and Young moduli of the printed table, the Young modulus and Poisson ratio of each row are the textbook functions of its bulk and shear moduli with -1 < Poisson < 1/2, and for an isotropic matrix all three rows coincide with K and G and the four direction-dependent functions are constant.", "quantifier": "all positive definite symmetric 6x6 matrices", "why_tests_cant": "quadratic-form inequality over 21 unknowns", "anchors": ["quantas/soec/utils/soec_obj.py:SOEC.averages"]}
{"id": "C30", "title": "Direction vectors are orthonormal", "statement": "The direction used for angles (theta, phi) is a unit vector, the second axis (theta, phi, chi) is a unit vector orthogonal to it, for all angles; antipodal angles give the opposite vector.", "quantifier": "all angles", "why_tests_cant": "all reals", "anchors": ["quantas/soec/utils/soec_obj.py:vector", "quantas/seismic/utils/seismic_obj.py:vector"]}
{"id": "C31", "title": "Directional elastic properties: invariances", "statement": "Young's modulus, linear compressibility, shear modulus and Poisson's ratio are unchanged when the loading direction is reversed; shear modulus is symmetric in exchanging direction and normal; Poisson's ratio satisfies nu(a,b)/E(a) = nu(b,a)/E(b); the sum of linear compressibilities along three orthonormal axes is the Reuss compressibility.", "quantifier": "all compliances and directions", "why_tests_cant": "all directions and matrices", "anchors": ["quantas/soec/utils/soec_obj.py:SOEC"]}
{"id": "C32", "title": "Orthorhombic fast path equals the general path", "statement": "For every compliance matrix of orthorhombic form the specialised formulas return the same Young's modulus, linear compressibility, shear modulus and Poisson's ratio as the general tensor formulas, at all angles.", "quantifier": "all orthorhombic compliances and all angles", "why_tests_cant": "trigonometric polynomial identity", "anchors": ["quantas/soec/utils/soec_obj.py:SOECOrtho", "quantas/soec/utils/soec_obj.py:SOEC"]}
{"id": "C33", "title": "Mechanical-stability gate", "statement": "A calculation on a stiffness matrix with a negative eigenvalue should be refused. At this commit the gate refuses exactly the all-zero spectra, so it never refuses an invertible matrix: unstable crystals are fully analysed and the run is marked completed.", "quantifier": "all invertible matrices, spectra, densities and settings", "why_tests_cant": "all spectra; tests only use stable crystals", "anchors": ["quantas/soec/soec.py:run"]}
{"id": "C34", "title": "Reported extrema and anisotropy", "statement": "Whenever the search returns an attained value no worse than at the first scanned node, the reported minimum is <= the reported maximum, both are attained, anisotropy is max/min >= 1 or infinity exactly when min <= 0; for one-direction properties the printed axes are unit vectors attaining the extrema; a search that is global on the scanned quarter of the sphere is global over all directions; for two-direction properties the two printed axes of an extremum are the same vector, perpendicular to the direction that attains it.", "quantifier": "all optimiser outcomes", "why_tests_cant": "all optimiser outcomes", "anchors": ["quantas/soec/soec.py:directional_variation"]}
{"id": "C35", "title": "Elastic-constant file forms denote one matrix", "statement": "A full matrix, and the upper triangle of a symmetric matrix, are read as that same symmetric matrix with the same density and job name; the documented lower-triangle form is read as a different matrix or refused.", "quantifier": "all symmetric 6x6 matrices, all densities and titles", "why_tests_cant": "all matrices; the lower-triangular form is documented and untested", "anchors": ["quantas/IO/soec_reader.py:load"]}
{"id": "C36", "title": "Elastic-constant reader accepts only symmetric matrices", "statement": "Whenever reading completes, a matrix is stored and, unless it contains a NaN, its Frobenius asymmetry (and every entry difference) is at most 1e-3; a NaN entry switches the check off. Files with fewer than six lines or an unreadable token in a row of at most twelve columns end in an error message; a blank first line or a first row of more than twelve columns raises IndexError instead. A failed reading never changes the stored matrix or density.", "quantifier": "all text files", "why_tests_cant": "all files", "anchors": ["quantas/IO/soec_reader.py:load"]}
{"id": "C37", "title": "Elastic-constant writer and reader round-trip", "statement": "Reading the file produced for a symmetric stiffness matrix and density gives every entry within 5e-5 GPa (4 decimals), the density within 0.05 (1 decimal) and the title without trailing blanks, whenever the title starts with a non-digit; a blank title makes the reader raise and a title starting with a digit and containing a word makes the file unreadable.", "quantifier": "all symmetric matrices, densities, titles", "why_tests_cant": "all matrices and titles", "anchors": ["quantas/IO/soec_writer.py", "quantas/IO/soec_reader.py"]}
{"id": "C38", "title": "Reader objects are isolated from one another", "statement": "The data of a reader should depend only on its own file. At this commit the elastic, EoS, VASP and CRYSTAL readers share class-level storage: a second reader inherits stale density, title or columns of the first, constructing a second reader changes data already returned by the first, and a VASP file that cannot be read leaves a mixture of its own values and those of the file before. A completed VASP read does depend on its own file only.", "quantifier": "all sequences of reader constructions", "why_tests_cant": "histories of arbitrary length", "anchors": ["quantas/IO/soec_reader.py", "quantas/IO/eos_reader.py", "quantas/interfaces/vasp.py", "quantas/interfaces/crystal.py"]}
{"id": "C39", "title": "EoS data file: column order does not matter", "statement": "A fresh reader on a file in the documented layout (JOB, title, FORMAT, names, DATA, rows) completes, stores the title, and stores under each name of the FORMAT line the numbers at that position of every row and nothing else; hence permuting the columns of the FORMAT line and of the rows consistently yields the same pressure, volume, cell parameters and uncertainties.", "quantifier": "all titles, column names, permutations and tables", "why_tests_cant": "all permutations and tables", "anchors": ["quantas/IO/eos_reader.py"]}
{"id": "C40", "title": "EoS data file: comments and keyword order", "statement": "Inserting comment or empty lines anywhere and changing the case of keywords changes nothing; DATA before FORMAT never completes and is the documented error; a FORMAT line without pressure makes the reader raise KeyError; the accepted abbreviation 'sigp' leaves the pressure uncertainty unset; a title whose first word is DATA makes the file unreadable, one whose first word is FORMAT is obeyed as that keyword; the reader loops for ever exactly when the title is the placeholder name 'Unknown'.", "quantifier": "all files", "why_tests_cant": "all files", "anchors": ["quantas/IO/eos_reader.py"]}
{"id": "C41", "title": "QHA/HA input completeness", "statement": "Reading completes exactly when volume, energy and phonon sections are all present in a YAML mapping; otherwise an error naming the first missing section is set. Exceptions: an empty YAML document neither completes nor sets an error; a plain-sentence document containing the three words is accepted as complete; a scalar volume raises TypeError. The QHA calculator additionally refuses fewer than four volumes. The job name is the given text without trailing blanks, or \"Unknown\".", "quantifier": "all parsed YAML documents", "why_tests_cant": "all documents", "anchors": ["quantas/IO/qha_reader.py", "quantas/qha/qha.py:read_input", "quantas/harmonic/harmonic.py:read_input"]}
{"id": "C42", "title": "QHA/HA input indexing", "statement": "The frequency array handed to the solvers has entry (q*nbands+mode, volume) equal to the frequency listed for that q-point, band and volume in the file, with missing q-points left at zero frequency and q-points beyond the announced number raising IndexError; weights are those listed and sum to the total the reader reports. Number lists may be YAML lists or bracketed text; unbracketed text is read as its first character.", "quantifier": "all documents of consistent shape", "why_tests_cant": "all shapes", "anchors": ["quantas/IO/qha_reader.py"]}
{"id": "C43", "title": "Temperature and pressure grids", "statement": "The grid for (min, max, step) starts at min, is equally spaced by step, contains every min + k*step <= max, and (max-min)/step integral gives exactly the points min..max; when the range is not a multiple of the step it contains a point beyond max.", "quantifier": "all min < max and step > 0", "why_tests_cant": "all reals", "anchors": ["quantas/qha/qha.py:temperature", "quantas/qha/qha.py:pressure", "quantas/harmonic/harmonic.py:temperature"]}
{"id": "C44", "title": "Fine volume grid for numerical derivatives", "statement": "The local grid around the equilibrium volume is equally spaced and its centre index points at exactly the equilibrium volume; with the odd number of points the program asks for it is symmetric, with an even number it would not be.", "quantifier": "all equilibrium volumes", "why_tests_cant": "all volumes", "anchors": ["quantas/qha/qha.py:fine_grid"]}
{"id": "C45", "title": "QHA report of F, U, S at each (T,P)", "statement": "In both interpolation schemes the tabulated F, U, S satisfy F = U - TS/1000 at every temperature and pressure, Fvib = Uzp + Uth - TS/1000, the static part is the same in U and F, and H - U = G - F = PV in SI units. The acoustic (Kieffer) correction keeps the identity, but a run that asks for it never completes.", "quantifier": "all inputs, temperatures and pressures", "why_tests_cant": "all inputs", "anchors": ["quantas/qha/qha.py:run_thermodynamics_interpolation", "quantas/qha/qha.py:_finalize_run"]}
{"id": "C46", "title": "Short temperature grids", "statement": "With fewer than 50 temperatures no derivative property is computed: expansion, Cp, Cp-Cv and Grueneisen are reported as 0 and KS as KT, so the reported Cp is below the reported Cv.", "quantifier": "all runs with fewer than 50 temperatures", "why_tests_cant": "all runs", "anchors": ["quantas/qha/qha.py:_finalize_run"]}
{"id": "C47", "title": "Thermal expansion by forward differences", "statement": "Expansion at T_i uses V(T_{i+1}) - V(T_i) over the step divided by V(T_i), the last temperature repeats the previous difference; exact for V linear in T; positive iff volume increases.", "quantifier": "all volume tables", "why_tests_cant": "all tables", "anchors": ["quantas/qha/qha.py:_finalize_run"]}
{"id": "C48", "title": "Christoffel matrix is well formed and shared by both modules", "statement": "The Christoffel matrix of the seismic module for direction n equals that of the elastic module, is symmetric, even in n and homogeneous of degree 2, and is positive definite when the stiffness is.", "quantifier": "all stiffness matrices, densities > 0 and directions", "why_tests_cant": "all matrices", "anchors": ["quantas/seismic/utils/seismic_obj.py", "quantas/soec/utils/soec_obj.py:phase_velocity"]}
{"id": "C49", "title": "Analytic gradients of the Christoffel matrix", "statement": "The gradient and Hessian arrays used for group velocity and enhancement are the exact first and second partial derivatives of the Christoffel matrix.", "quantifier": "all stiffness tensors and directions", "why_tests_cant": "derivative identities", "anchors": ["quantas/seismic/utils/seismic_obj.py:grad_M", "quantas/seismic/utils/seismic_obj.py:hessian_christoffel_matrix"]}
{"id": "C50", "title": "Group velocity projects onto phase velocity", "statement": "For every direction and mode, group velocity dotted with the direction equals the phase velocity, hence group speed >= phase speed, whenever the eigen-solver returns genuine normalised eigenpairs with non-zero phase velocity.", "quantifier": "all stiffness tensors, directions and modes", "why_tests_cant": "all inputs", "anchors": ["quantas/seismic/utils/seismic_obj.py:solve_group"]}
{"id": "C51", "title": "Lazy caches never return stale values", "statement": "After any sequence of direction changes and queries, every query returns the value belonging to the current direction.", "quantifier": "all histories of calls on one object", "why_tests_cant": "unbounded histories", "anchors": ["quantas/seismic/utils/seismic_obj.py"]}
{"id": "C52", "title": "Cartesian and spherical direction setters", "statement": "Setting a direction by its Cartesian components computes the Christoffel matrix of exactly that direction (normalised). Setting it from Cartesian components should also record the angles that describe it; at this commit the azimuth is measured from the y axis, so the recorded angles (and likewise the angles reported for the group velocity) describe the mirror image with x and y exchanged, and setting the direction again from the recorded angles gives the same direction exactly when x = y.", "quantifier": "all non-zero vectors, stiffness matrices, densities", "why_tests_cant": "Tests sample a handful of directions, and the fault is invisible whenever x = y or only the velocities are looked at.", "anchors": ["quantas/seismic/utils/seismic_obj.py:416-442", "quantas/seismic/utils/seismic_obj.py:551-570"]}
{"id": "C53", "title": "Isotropic medium", "statement": "For an isotropic stiffness matrix and any direction, whatever correct eigen-solver is used, the three sorted phase velocities are the three isotropic velocities reported (transverse twice, then longitudinal), group velocity equals phase velocity along the wave vector, the power-flow angle is zero and the enhancement factor is one, for the degenerate modes too; the isotropic velocities agree between elastic and seismic modules for every crystal.", "quantifier": "all K, G, rho > 0, directions and correct eigen-solvers", "why_tests_cant": "A test checks one material and one direction with one LAPACK; degenerate eigenvalues leave the eigenvectors arbitrary so a test can only see one choice.", "anchors": ["quantas/seismic/utils/seismic_obj.py:223-316", "quantas/seismic/utils/seismic_obj.py:454-659"]}
{"id": "C54", "title": "3x3 cofactor matrix", "statement": "The pure-Python cofactor satisfies M * cof(M)^T = det(M) I for every 3x3 matrix.", "quantifier": "all matrices", "why_tests_cant": "polynomial identity", "anchors": ["quantas/seismic/utils/seismic_obj.py:cofactor"]}
{"id": "C55", "title": "Seismic sphere sampling", "statement": "Every (theta, phi) node of the requested grid appears on exactly one row, rows are in theta-major order, the last row is the last node and both ends of each interval are included; a single division in either angle fails with a division by zero.", "quantifier": "all grid sizes", "why_tests_cant": "all sizes", "anchors": ["quantas/seismic/seismic.py:run"]}
{"id": "C56", "title": "VASP elastic tensor reordering", "statement": "Reading a VASP elastic tensor should yield the Voigt-ordered matrix in GPa. What is read is one tenth of the printed (kBar) table with rows and columns permuted so that every component without yz or zx shear is right, C66 included, while the yz and zx components are exchanged; the matrix is right exactly when the printed tensor is unchanged by exchanging yz and zx. The TOTAL table is read when there is one, otherwise the last clamped-ion table; with two TOTAL tables the last one is read from one line too early.", "quantifier": "all files and all previous contents of the shared array", "why_tests_cant": "all tensors", "anchors": ["quantas/interfaces/vasp.py:load"]}
{"id": "C57", "title": "CRYSTAL frequency parser termination", "statement": "The loop that reads one table of CRYSTAL frequencies stops exactly when the lines up to the first blank one list as many frequencies as there are modes, and the band is that list: a line 'n1- n2 ... f' gives f to every mode from n1 to n2. If the blank line comes earlier the program runs for ever, whatever follows in the file; if too many are listed, or no blank line follows, an exception is raised. One band is read for each of the first q-point tables, in file order.", "quantifier": "all files, numbers of modes and q points", "why_tests_cant": "non-termination cannot be observed by a finite test", "anchors": ["quantas/interfaces/crystal.py:set_phonons"]}
{"id": "C58", "title": "CRYSTAL elastic tensor: symmetric on first read only", "statement": "The first elastic tensor read from a CRYSTAL output in a process is the symmetric completion of the printed upper triangle; after any history of reads each entry below the diagonal is the sum of the values printed in all files completed so far, so that a second read is symmetric exactly when the earlier sum is zero. The density is the printed one times 1000.", "quantifier": "all files and all histories of reads", "why_tests_cant": "histories", "anchors": ["quantas/interfaces/crystal.py:CrystalSOECReader"]}
{"id": "C59", "title": "CRYSTAL QHA output: pairing of volumes, cells, energies and frequencies", "statement": "Point p of a completed reading has the volume and energy of line p of the sorted table and the frequencies of line p of every block; when each sorted volume is (to 1e-5) that of exactly one optimized cell, the cells are a permutation of those printed, each paired with its own volume. Volumes closer than the tolerance can shift all following cells without an error; a volume without cell is an exception; tables longer than 100 lines are cut; a file with too few optimized cells is called complete.", "quantifier": "all files and lists of volumes and cells", "why_tests_cant": "all permutations", "anchors": ["quantas/interfaces/crystal.py:set_ordered_cells"]}
{"id": "C60", "title": "QHA input generation and its round trip through the QHA reader", "statement": "Read as YAML, the document the input generator writes for any non-empty list of outputs with a plain description and a valid reference (0 to n-1, or negative down to -n) has the volume and energy of each output in order, the supercell and atoms of the reference, and for every q point and band the frequencies of all the outputs, each number rounded to the decimals written; the QHA reader returns exactly those rounded numbers, and for one output the harmonic reader does. A reference equal to the number of outputs is announced as valid but crashes; below minus the number it crashes too. A second generator in the same process also writes the outputs of the first. Reading stops at the first file that fails, keeping the earlier ones; a blank line in the list is such a file. An output lacking a band crashes the writing. A description which is empty, an integer, or contains ': ' gives a file which the reader refuses or crashes on.", "quantifier": "all lists of outputs, reference indices, descriptions, list files and histories of generators in one process", "why_tests_cant": "the round trip must hold for every real volume, energy and frequency and for every number of atoms, bands, q points and outputs; histories and indices are unbounded", "anchors": ["quantas/IO/qha_writer.py", "quantas/harmonic/commands/cmd_inpgen.py"]}
{"id": "C61", "title": "Messages and log file", "statement": "For every command which runs a calculator: quiet or not, the run ends the same way, leaves exactly the same files (log included) and shows the same errors, warnings and questions. Without quiet, the log is a newline followed by everything said on the terminal, one line each, except that questions are not logged and the banner of a failed reading is shown only on the terminal; the same for eosfit. A quiet run says nothing but errors, warnings, questions, messages which the calculator marks as always shown, and 'Results not saved' (which is said even in quiet mode). The log of a run does not depend on what the log file contained before, unless the log file is the input.", "quantifier": "all commands, calculators, inputs, outcomes, exceptions, answers of the user and prior file contents", "why_tests_cant": "relates two whole runs, for any calculator and any point where an exception may be raised", "anchors": ["quantas/cmdline/utils/messages.py", "quantas/core/calculator.py", "quantas/qha/commands/cmd_qha.py", "quantas/eosfit/commands/cmd_eosfit.py"]}
{"id": "C62", "title": "Result, log and input files of a command", "statement": "The result is written to the input's path without extension plus _HA/_QHA/_SOEC/_SEISMIC.hdf5, or to the given name plus .hdf5; the log to the result's path with .txt instead of .hdf5 (appended if the given name has only dots after the last slash), which is never the result path. Nothing but these two paths changes. An existing result is kept unless the user confirms, however the run ends; a completed run saves its results exactly when the result did not exist or the user says yes, asking exactly when it exists. Without an output name the input file is never changed; with one, an input called name.txt is emptied before it is read, so its contents make no difference. An existing file with the log's name is replaced without a question. eosfit with an output name fails (UnboundLocalError) before doing anything, and an input called *.log is emptied before it is read.", "quantifier": "all paths, names, worlds, calculators, answers and outcomes", "why_tests_cant": "all paths (dots, slashes, leading dots), all points of failure", "anchors": ["quantas/qha/commands/cmd_qha.py", "quantas/harmonic/commands/cmd_ha.py", "quantas/soec/commands/cmd_soec.py", "quantas/seismic/commands/cmd_seismic.py", "quantas/eosfit/commands/cmd_eosfit.py"]}
{"id": "C63", "title": "Exported tables of (quasi-)harmonic results", "statement": "Any of the 17 properties stored by a QHA run, and the thermal energy, internal energy, entropy, both free energies and heat capacity stored by a harmonic run, export to a complete text table whatever was exported before: fixed header, property title, unit, axis names with units, the pressures (volumes) and one line per temperature whose blank separated numbers are the temperature to 2 decimals and the stored values to 8 decimals or 12 digits after the first; titles tell properties apart; while numbers are below 10^10 all table lines are 21*n+12 wide and every number is alone in its own 21 character column. Existing files are replaced only after confirmation of that name. False and shown so: static energies of a harmonic run, and zero-point energies with two or more temperatures, cannot be exported (IndexError leaving a cut file); Cp and Cp-Cv are stored with the energy unit although they are in thousandths of it; an exporter exports the data of the last exporter that loaded a file; a name typed in place of an existing one is overwritten unasked.", "quantifier": "all results, all temperature and pressure (volume) grids, all units, all earlier exports", "why_tests_cant": "tests compare a few files; that every number of every table is readable, rounded as documented and in its column needs a quantification over all reals and grid sizes", "anchors": ["quantas/qha/utils/table.py:30-200", "quantas/qha/utils/export.py:20-97", "quantas/harmonic/utils/table.py", "quantas/harmonic/utils/export.py", "quantas/qha/qha.py:1229-1298", "quantas/harmonic/harmonic.py:296-336"]}
{"id": "C64", "title": "Interactive EoS session", "statement": "The session only ever fits an EoS/order pair that exists, invalid answers re-prompt without changing the settings, and the loop ends only on the exit answer.", "quantifier": "all input streams", "why_tests_cant": "all input streams", "anchors": ["quantas/eosfit/utils/interactive.py", "quantas/eosfit/eosfit.py:EoSFitCalculator.run"]}
{"id": "C65", "title": "Start values across a history of interactive fits", "statement": "In the interactive session a volume fit starts from exactly the displayed parameters, but every fit of axial data multiplies the first parameter of the user's own guess by three in place, so n fits without accepting the result start from 3, 9, ..., 3^n times the displayed value; and unless the user fixes parameters all four are left free at every order, including the ones reported as implied.", "quantifier": "all sessions with any number of repeated fits, all guesses, all EoS and orders", "why_tests_cant": "a property of histories of arbitrary length", "anchors": ["quantas/eosfit/eosfit.py:EoSFitCalculator.run", "quantas/eosfit/utils/pv_eos.py:EOS.fit"]}
{"id": "C66", "title": "Quality figure of the polynomial fits", "statement": "For non-constant data fitted by least squares the reported R^2 lies between 0 and 1, equals one minus the unexplained fraction of the variance and is 1 exactly when the polynomial passes through every point; table and single-row paths agree on such data, but for constant data, however well fitted, the table path reports 0 (labelled BAD) and the single-row path divides zero by zero.", "quantifier": "all data tables, abscissae and coefficient tables, all schedules", "why_tests_cant": "all tables and reals; least-squares optimality as a hypothesis", "anchors": ["quantas/utils/math/fast_math.pyx:multi_R2", "quantas/utils/math/polynomials.py:single_R_squared"]}
{"id": "C67", "title": "Sections of the elastic report", "statement": "In a completed run the velocity variations, polar velocities and velocity figure appear exactly when a positive density was given (and the options ask for them); the section with average velocities is printed even when there is no density.", "quantifier": "all settings, densities and spectra", "why_tests_cant": "all option combinations and all matrices", "anchors": ["quantas/soec/soec.py:run", "quantas/soec/soec.py:report_initial_results"]}
{"id": "C68", "title": "Polar cuts of elastic properties", "statement": "Row i of each polar table gives the property along the direction of the named plane at the printed angle (measured from x in xy, from z in xz and yz); the compressibility columns are its positive and negative parts and the Poisson columns split the least value by sign; there are 360 rows spaced by 360/359 degrees and the last repeats the first direction.", "quantifier": "all compliance matrices, planes and rows", "why_tests_cant": "holds for every matrix and row", "anchors": ["quantas/soec/soec.py:calculate_polar_properties", "quantas/soec/utils/soec_obj.py:polar_compressibility"]}
{"id": "C69", "title": "Equilibrium volume and bulk modulus of a quasi-harmonic run", "statement": "With polynomial minimisation and the thermodynamic scheme, every temperature has one polynomial F(V) such that, at each reported volume, the reported free energy is F(V), the requested pressure is -dF/dV, F + PV has a strict local minimum there, and the reported KT is V d2F/dV2 (positive), all in SI units; if no such volume exists the run stops with IndexError. With EoS minimisation the fitted curve has the requested pressure and the reported KT at the reported volume.", "quantifier": "all inputs with distinct volumes, all temperatures and pressures, polynomial degree below 5", "why_tests_cant": "needs every input, temperature and pressure and an exact derivative", "anchors": ["quantas/qha/qha.py:minimize_volume", "quantas/qha/qha.py:numerical_bulk_modulus", "quantas/qha/qha.py:run_thermodynamics_interpolation"]}
{"id": "C70", "title": "Derived thermodynamic columns of a quasi-harmonic run", "statement": "With at least 50 temperatures Cp - Cv = alpha^2 KT V T in SI (heat capacities in thousandths of the energy unit), gamma = alpha KT V / Cv, KS/KT = Cp/Cv, KS = KT (1 + alpha gamma T), and KS >= KT, Cp >= Cv for positive KT, V, Cv and T >= 0.", "quantifier": "all runs, all temperatures and pressures, all units", "why_tests_cant": "all runs", "anchors": ["quantas/qha/qha.py:_finalize_run"]}
{"id": "C71", "title": "Columns of the harmonic table", "statement": "In the harmonic table, in the user's units: Utot = U0 + Uzp + Uth, F = U0 + Fvib, Fvib = Uzp + Uth - T S/1000 and F = Utot - T S/1000. Zero-point energy, thermal energy, entropy and heat capacity themselves are the sums over the modes of the input of the oscillator formulas, every q-point counted with its weight divided by the total of the weights.", "quantifier": "all inputs, temperatures >= 0 K, volumes and units", "why_tests_cant": "all inputs", "anchors": ["quantas/harmonic/harmonic.py:run"]}
{"id": "C72", "title": "Harmonic results do not depend on the units of the input", "statement": "Two inputs describing the same physical system in different energy, frequency and temperature units give harmonic tables with the same values in SI.", "quantifier": "all pairs of unit choices, all inputs", "why_tests_cant": "all pairs of units and inputs", "anchors": ["quantas/harmonic/harmonic.py:run", "quantas/utils/physics/units.py"]}
{"id": "C73", "title": "A run in offered units completes", "statement": "Every harmonic run in units the command line offers completes; a quasi-harmonic run without the acoustic correction completes whenever the fit returns or every fitted isotherm (the F column of the harmonic table) has a minimum of F + PV at every requested pressure.", "quantifier": "all inputs, all offered unit choices, both schemes and minimisers", "why_tests_cant": "all inputs and 72 unit combinations", "anchors": ["quantas/qha/qha.py:run", "quantas/harmonic/harmonic.py:run", "quantas/qha/commands/cmd_qha.py"]}
{"id": "C74", "title": "Group velocity, Hessian and ray Jacobian are exact derivatives", "statement": "Along any differentiable family of normalised eigenpairs of the Christoffel matrix, the stored eigenvalue gradient is the gradient of the eigenvalue, the group velocity is the gradient of the phase velocity, the stored Hessian (with an exact Moore-Penrose inverse and a simple eigenvalue) is the derivative of that gradient, and the matrix whose cofactors give the enhancement factor is the Jacobian of the ray direction with respect to the wave vector; the enhancement factor is the ratio of the area of any parallelogram spanned by wave vectors, seen from the phonon focus, to that of its image under this Jacobian.", "quantifier": "all tensors with symmetric Christoffel matrix, directions, simple modes", "why_tests_cant": "Finite differences only approximate derivatives at sampled directions; a wrong factor in the second-order term changes numbers but not their plausibility.", "anchors": ["quantas/seismic/utils/seismic_obj.py:502-570", "quantas/seismic/utils/seismic_obj.py:635-659"]}
{"id": "C75", "title": "CRYSTAL phonon output: cell, volume and energy belong together", "statement": "For a phonon dispersion run the reported volume and energy times the determinant of the supercell matrix are the volume and energy printed for the supercell; for a Gamma run they are those printed. The reported unit cell lattice is the one the supercell was built from exactly when it commutes with the supercell matrix (always for uniform expansions), otherwise it is a different lattice of the same volume. A supercell run without q mesh is never read; a file with fewer frequency tables than q points is called complete.", "quantifier": "all files, lattices and integer supercell matrices", "why_tests_cant": "all lattices and matrices", "anchors": ["quantas/interfaces/crystal.py:CrystalPhononReader"]}
{"id": "C76", "title": "Temperature and pressure ranges in double precision", "statement": "With every operation rounded to a double, a range min max step contains every point up to max (the slack of 4 roundoffs of |min|+|max|+step being below the step), ends below max + step + slack, has exactly the mathematical number of points unless a point falls into that slack, and its k-th value is within k*6*2^-53*(|min|+step) of min + k*step; ranges made of whole multiples of a power of two (whole degrees) are exact. With decimal steps one point too many can appear: 298.15 298.15 0.1 is computed at 298.15 and 298.25.", "quantifier": "all doubles min, max and positive step; all indices", "why_tests_cant": "whether the extra point appears depends on the last bit of three roundings for each triple of numbers; a bound on all of them needs an error analysis", "anchors": ["quantas/qha/qha.py:287", "quantas/qha/qha.py:313", "quantas/harmonic/harmonic.py:136"]}
{"id": "C77", "title": "Polar tables exported from elastic result files", "statement": "`quantas export` on the result file of `quantas soec --polar` offers Young's modulus, linear compressibility, shear modulus and Poisson's ratio, and the wave velocities exactly when a density was given. The text file written for an offered quantity has one line per sampled angle: the angle rounded to 1 decimal, then the values calculated on the xy, xz and yz planes rounded to 4 decimals, each in the character columns under the name of its plane and of its quantity, with the unit the run used. It is the last loaded result file whose values are exported, whatever was loaded before. Files without a stiffness matrix are refused. Exceptions recorded: without --polar every quantity, velocities included, is offered and exported as one line of zeros; the stored compliance matrix is labelled TPa^-1 but is in GPa^-1; values with ten digits before the point run together.", "quantifier": "every stiffness, density, pressure unit, search result and velocity function, any sequence of result files loaded before, every offered quantity, all 360 directions, values between -99999999 and 999999999", "why_tests_cant": "The placement and the association of columns with planes depends on the alphabetic order of dataset names, on the substring selection and on state shared between exporters; a test covers one file and one order of loading.", "anchors": ["quantas/soec/utils/export.py:35-96", "quantas/soec/utils/table.py:15-132", "quantas/soec/soec.py:118-152,301-379,530-567"]}
{"id": "C78", "title": "Tables exported from seismic result files", "statement": "`quantas export` on the result file of `quantas seismic` offers the slow secondary, fast secondary and primary mode. The text file of a mode starts with the description of the run, of that one dataset and of its 14 columns, and continues with exactly one line per node of the sphere, in the order of the theta and phi loops: the 14 values calculated for that mode at that node, each rounded to its number of decimals and always separated by blanks, whatever their size. The last loaded file is the one exported. Files without a primary dataset are refused. A seismic calculation is refused exactly when the density is missing or zero. Exceptions recorded: a negative density is accepted; the last column is labelled log_10A but holds the factor itself (1, not 0, for isotropic crystals).", "quantifier": "every stiffness, density, eigenvalue/pseudo-inverse/inverse routine, every number of theta and phi points from 2, every node and mode, any history of loaded result files", "why_tests_cant": "Tests read a single exported file; that modes, nodes and columns are never mixed up and that lines stay readable for any magnitude, after any sequence of loaded files, is a statement about all of them.", "anchors": ["quantas/seismic/utils/export.py:19-106", "quantas/seismic/seismic.py:130-156,181-257,262-306"]}
{"id": "C79", "title": "Acoustic branches of the Kieffer model", "statement": "For a list of acoustic cut-off frequencies, `Kieffer.heat_capacity(T)` and `Kieffer.helmholtz(T)` are, branch by branch, N_A k (and N_A k T) times the mean of the oscillator functions over a sphere of wave vectors whose frequency is cut-off * sin(pi/2 * t), less the core below reduced frequency 1e-6. So the heat capacity lies between 0 and N_A k per branch and tends to N_A k per branch when the cut-offs are small, the free energy is negative, only ratios of frequency and temperature count, the order of the branches does not matter, and everything is 0 at T = 0. Exception recorded: `Kieffer.entropy(T)` is not the matching entropy (the first term is divided by (e^x-1)^2 instead of e^x-1, and the last 0.1 % of the frequency range is left out); for small reduced cut-offs F + T S exceeds four times the largest energy the branch can have.", "quantifier": "every list of cut-off frequencies, every temperature, every integrator that returns the integral (improper at the cut-off included), all physical constants", "why_tests_cant": "the integrand is singular at the upper limit; a test compares a few numbers computed with the same formula, it does not tie the three functions to one another over a continuum of temperatures and frequencies", "anchors": ["quantas/qha/utils/kieffer.py:51-64", "quantas/qha/utils/kieffer.py:66-98", "quantas/qha/utils/kieffer.py:100-174", "quantas/qha/utils/kieffer.py:176-237"]}
{"id": "C80", "title": "Phonopy calculations become quasi-harmonic inputs", "statement": "`PhonopyReader` / `quantas inpgen qha --interface phonopy`: for a mesh file <path>.yaml written by phonopy, with <path>_disp.yaml and <path>.xml beside it (path computed as os.path.splitext does, so dots in directories and in the base name are kept), the reader reports the number of atoms, 3N modes, the supercell matrix of the displacement file, the volume as triple product of the lattice vectors, the last e_wo_entrp energy of the XML file, and every q-point, weight and frequency, frequencies converted from THz to cm^-1 by 1e12/(100 c). A list of such files gives an input file which the quasi-harmonic reader reads back with exactly these quantities, volume by volume in list order. Failures: a missing displacement file and missing keys end in a message. Exceptions recorded: a missing XML file gives energy 0 without warning; a file that is not YAML ends in UnboundLocalError; a left-handed lattice gives a negative volume; fractional positions are truncated to integers, so all atoms sit at the origin.", "quantifier": "all mesh, displacement and energy documents of any number of atoms, q-points and volumes; all path names with an extension; all physical constants", "why_tests_cant": "tests read a few stored files of one material; they do not cover all paths, cell shapes and list orders, nor the chain from phonopy files through the generator to the quasi-harmonic reader", "anchors": ["quantas/interfaces/phonopy.py:51-121", "quantas/interfaces/phonopy.py:205-265", "quantas/IO/qha_writer.py"]}
{"id": "C81", "title": "Where quasi-harmonic numbers come from", "statement": "A quasi-harmonic run and a harmonic run of the same input are tied together. Thermodynamic scheme: every column (Uzp, Uth, Utot, S, F, Fvib, Cv) at (T, P) is the least-squares polynomial, in the volume, of the harmonic column at T, taken at the reported volume. Frequency scheme: every column is the weighted sum over oscillators whose frequencies are the fitted polynomials at the reported volume (modes with a non-positive fitted frequency do not count), plus the fitted static energy. Reported volume: polynomial minimisation gives a strict local minimum of f(V) + PV with f the polynomial through the harmonic free energies; EoS minimisation gives the V0, K0, K' of the EoS curve such that curve - PV is closest to the harmonic free energies. Bulk modulus and K' of polynomial runs come from the free energies at five volumes around V (steps of 0.05 %): K = V F'', and K' the slope at P of the least-squares parabola through the five (P, K). Exception recorded: with free energies of degree 2 the reported K' is -1 for every material.", "quantifier": "all inputs (any number of volumes, q-points, modes), all temperature and pressure lists, units, fit degrees, schemes and minimisers; any least-squares solver, any root finder that is exact", "why_tests_cant": "tests compare a stored table of one mineral; they cannot separate errors of the fit, of the interpolation and of the minimisation, nor show that no column uses another temperature, volume or table", "anchors": ["quantas/qha/qha.py:480-625", "quantas/qha/qha.py:627-849", "quantas/qha/qha.py:961-1111"]}
{"id": "C82", "title": "The elastic input generator hands over what the ab initio output prints", "statement": "`quantas inpgen soec FILE`: after a completed read and a one-line description that is not blank and does not start with a digit (the default qualifies), the command ends normally, writes exactly one file, and reading that file with the elastic reader gives, whatever was read before, the matrix printed in FILE (CRYSTAL: symmetric completion of the upper triangle; VASP: a tenth of the printed table with the code's placement of shear rows) with every component within 5e-5 GPa, and the density within 0.05 kg/m3 (CRYSTAL) or 0 (VASP). If nothing was collected or the prompt is interrupted no file changes, and refused or binary files end with a message. Refuted: an existing file, even FILE itself, is replaced without a question; a blank description is accepted and gives an unreadable file.", "quantifier": "for all files, worlds (contents of all paths), output names, descriptions, rounding rules of the C library", "why_tests_cant": "Composition of parser, formatter and parser over all outputs, numbers and file systems; tests fix a handful of outputs and never look at the other files.", "anchors": ["quantas/soec/commands/cmd_inpgen.py:38-95", "quantas/IO/soec_writer.py:15-83", "quantas/interfaces/vasp.py:28-77", "quantas/interfaces/crystal.py:1428-1482", "quantas/IO/soec_reader.py:92-185"]}
{"id": "C83", "title": "The harmonic tables are accurate in double precision", "statement": "Computed with C doubles (rounding to nearest, gradual underflow, overflow to infinity, NaN, Cython's division-by-zero test) and a C library with errors below one unit in the last place, the five oscillator functions return finite numbers at every temperature and frequency between 2^-100 and 2^100 whose quantum is at least 2^-40 thermal energies (5.7 Hz at 300 K), however large the quantum: relative error at most 18 roundoffs (2^-53) for the zero-point energy; 64(1+x) roundoffs, plus 2^-280 quanta, for the thermal energy; 96(1+x) roundoffs, plus 2^-140 R, for the heat capacity; 2^-45 R(1+1/x) for the entropy; 2^-46 (quantum + RT(1+1/x)) for the free energy, where x is quantum over thermal energy. At 0 K the first three vanish exactly and the free energy is the zero-point energy. Every entry of the five tables (at most 2^50 modes, non-negative weights, imaginary modes and 0 K included) is finite and differs from the exact weighted sum by at most N (2^-39 times the summed sizes of the modes, plus 2^-1072), N the number of modes. Refuted: below 2^-56 thermal energies the free energy is -inf and the entropy +inf; when KB*T underflows the free energy is reported as 0 instead of the zero-point energy.", "quantifier": "for all C libraries of that accuracy, constants of the size of CODATA's, temperatures, frequencies, weights, numbers of q-points, modes and volumes", "why_tests_cant": "Overflow of exp, underflow of the square and cancellation in 1-exp(-x) depend on the ratio of frequency and temperature over 200 binary orders of magnitude and on the platform's libm; tests sample a few temperatures with one libm.", "anchors": ["quantas/utils/physics/statistical_mechanics.pyx:17-33", "quantas/utils/physics/statistical_mechanics.pyx:92-100", "quantas/utils/physics/statistical_mechanics.pyx:194-203", "quantas/utils/physics/statistical_mechanics.pyx:262-274", "quantas/utils/physics/statistical_mechanics.pyx:353-386"]}
{"id": "C84", "title": "The figures of a seismic run show each value at its own direction", "statement": "Of a stored seismic run, or of such a file given to --only-plot, the plotter recovers the two numbers of angles and saves exactly the documented figures, each name once. In each of the six 2D maps (phase and group velocity, absolute and relative, power flow angle, decimal logarithm of the enhancement factor; slow, fast and primary waves side by side) every node is drawn where the chosen projection puts its direction, with the value of the column the file describes; the square is the first greatest value, the circle the first least, the printed anisotropy is 200(max-min)/(max+min). The stereographic map preserves angles, the other one areas; both are injective, fill the unit disc, and two nodes drawn at one place have the same values. The 3D figures are the unit sphere; the half that was not computed is drawn with the values of the opposite direction, and these are indeed the same there. The ratio maps are 200(vs1-vs2)/(vs1+vs2), vP/vs1, vP/vs2. Other files are refused with a message. Refuted: the arrows of the polarization figure are rays (at a right angle to the polarization of a shear wave); ratios and polarization are drawn although 2D plots were switched off, and raise NameError without matplotlib; --only-plot without -p, plots of a run that was not saved, a foreign HDF5 file, and a run without plots after one with plots in the same process end in exceptions; the ratio figure of one projection replaces that of the other.", "quantifier": "for all crystals, linear algebra results, numbers of angles from 2 on, base names, projections and plot options", "why_tests_cant": "Figures are compared by eye if at all; that each of the thousands of nodes of each panel is at its own place with its own column, for all grids and crystals, and that the uncomputed hemisphere may be mirrored, is a statement about all inputs.", "anchors": ["quantas/seismic/utils/seismic_plotter.py:376-860", "quantas/seismic/seismic.py:41-107", "quantas/seismic/seismic.py:308-330", "quantas/seismic/commands/cmd_seismic.py:108-151", "quantas/IO/hdf5_reader.py:26-60", "quantas/utils/flags.py"]}
{"id": "C85", "title": "A mistyped command is never run and the right one is suggested", "statement": "In each command group a word runs a command if and only if it is a registered name, and then that one. Any other word ends the program with a message that lists at most three registered names, each once and in alphabetical order, and each of them either has at least half of the characters of the two words in common with it, in the same order, or begins with it. A registered name that shares one piece making up half of the two words is listed, or three similar names are; without similar names the first three that begin with the word are. A word without any character of a name lists nothing, and a word more than three times as long as a name does not list it. For the three groups of Quantas: whoever inserts, omits or replaces one character of a command (any byte), exchanges two, or types only its beginning, is shown that command. Refuted: the documented commands 'quantas seismic' and 'quantas export seismic' exist; a command in capitals is recognised or suggested.", "quantifier": "for all groups of names and all words (shorter than 200 characters for the completeness part); all one-character mistakes of all commands", "why_tests_cant": "The words a user may type are infinitely many, and the matching algorithm (longest blocks, quick upper bounds, three best) is heuristic: that it misses no one-letter mistake has to hold for every byte at every place.", "anchors": ["quantas/cmdline/utils/general.py:20-60", "quantas/cmdline/commands/cmd_quantas.py:45-50", "quantas/cmdline/commands/cmd_export.py:27-29", "quantas/cmdline/commands/cmd_inpgen.py:26-27", "docs/source/tutorials/seismic_tutorial.rst:30"]}
{"id": "C86", "title": "The polar figures of elastic constants show each value along its own direction", "statement": "With polar properties and plotting requested and matplotlib present, an elastic run saves exactly the figures of E, LC, G, Nu and, if the density is known, of the wave velocities, each under its own name; otherwise none. Each figure has one axis per plane with its title; its curves are the calculated columns, each with 360 points whose radius is the calculated value and whose ray on paper is the direction of that value in the crystal (x up and y left in xy, z up and x or y left in xz, yz). The outer limit is 1.1 times the greatest value of one column: maximum, for the compressibility the positive one. For a stable crystal all curves of E, G and the waves lie inside the limit. Refuted: the negative compressibility and the Poisson's ratio are always inside the limit (a stable crystal has limit 0 and a negative curve beyond 1000 everywhere; an isotropic auxetic has all three curves beyond the negative limit); v_s1 means the same wave as in the seismic figures; asking for figures without polar properties gives a message.", "quantifier": "for all compliance matrices, densities, settings, wave velocities and Powell results (inside: positive definite compliances, searches that attain a value not above their starting point)", "why_tests_cant": "Figures are written as pictures; that no curve of any stable crystal is cut off, and which crystals break it, is a statement about all tensors and directions.", "anchors": ["quantas/soec/utils/plotting.py:66-299", "quantas/soec/soec.py:86-92", "quantas/soec/soec.py:276-297"]}
{"id": "C87", "title": "The elastic report says the computed values in their places", "statement": "The printed report repeats the system, the density (or that it is missing), the 36 stiffnesses rounded to 4 decimals and the 36 compliances in TPa^-1 rounded to 6. For a stable crystal the rows Voigt, Reuss and Hill give bulk, Young's, shear modulus and Poisson's ratio of the textbook averages in that order, rounded to 5 decimals, and, with a density, the velocities of the Hill medium. The table of moduli gives least and largest Young's modulus and linear compressibility over all directions, their ratio (inf if the least is not positive) and unit directions along which they are found; the second table the same for shear modulus and Poisson's ratio over all pairs of perpendicular directions; the third for the three waves, V_s1 being the slowest. An isotropic medium shows three equal rows and anisotropy 1. Refuted: 1st Axis and 2nd Axis are the pair of directions of the extreme (both lines show the same vector); the average velocities are left out without a density (nan km/s is printed).", "quantifier": "for all stiffness matrices, densities, eigenvalues and settings, and all searches that find the least value in the scanned box", "why_tests_cant": "That every printed number is the rounded value of the quantity its column is named after, for any tensor, and the least and largest over a continuum of directions, cannot be sampled.", "anchors": ["quantas/soec/soec.py:42-53", "quantas/soec/soec.py:191-299", "quantas/soec/soec.py:383-406", "quantas/soec/soec.py:455-530", "quantas/soec/soec_obj.py:323-339", "quantas/soec/soec_obj.py:402-424"]}
{"id": "C88", "title": "The report of a (quasi-)harmonic run says the computed values in their places", "statement": "The text `quantas qha` and `quantas ha` print shows, in the columns named by the header and in the units the header names, the volumes and energies of the input, the number of atoms, volumes and frequencies, the pressure at every input volume (minus the slope of the energy, or of the fitted equation of state), the R^2 and the verdict OK/Low/BAD! of the fit of every mode, and for every pressure and temperature the volume, thermal expansion, bulk moduli and Cp-Cv; every number is the computed one correctly rounded to the decimals shown. A parameter printed as value(error) reads back as the parameter and its standard error rounded to the same decimals.", "quantifier": "for all inputs, all settings, all completed runs, all rows and columns", "why_tests_cant": "a test compares one printed report with a stored text; that every number of every report stands under the right name in the right unit, rounded and not truncated, for all values including those where the notation value(error) loses a zero, needs a proof over all of them", "anchors": ["quantas/qha/qha.py:346-436", "quantas/qha/qha.py:505-519", "quantas/qha/qha.py:1175-1226", "quantas/harmonic/harmonic.py:155-182"]}
{"id": "C89", "title": "The equation of state report says the measured and fitted values in their places", "statement": "The report of an EoS input shows the title of the file and, for each row of the file, the pressure (3 decimals) and the volume and axes (5 decimals) of that row under the columns named after them, two dashes for quantities the file does not have, and announces weights exactly for the quantities whose uncertainties were read. The report of a fit names the fitted quantity, the formulation, the order and which data were weighted; gives each parameter under its symbol with its value and standard error, (FIXED) exactly for the parameters the user fixed and [IMPLIED] exactly for the parameters on which the fitted curve does not depend, for every formulation and order of the menus; the covariance matrix, residual variance and stopping reasons; and for every datum its value, displacement, the observed pressure, the fitted pressure and their difference. Refuted: the column named P_obs holds the fitted pressure (the observed one is in the column before it); the value printed for an implied K'' is the one implied by the start values, not by the fitted K0 and K' printed above it; columns left over from a shorter file stop the report.", "quantifier": "all contents of input files in the documented layout; all outputs of the fit, fixed parameters, weights, data keys, formulations and orders offered; all start values", "why_tests_cant": "The text depends on real numbers and on every combination of present and absent columns; that a mark is right needs the independence of the curve from a parameter for all values of the others, and the mismatch of implied values needs a quantification over start and fitted values.", "anchors": ["quantas/eosfit/eosfit.py:91-135", "quantas/eosfit/eosfit.py:206-280", "quantas/eosfit/utils/interactive.py:48-57", "quantas/eosfit/utils/interactive.py:266-286", "quantas/eosfit/utils/pv_eos.py:171-223", "quantas/eosfit/utils/pv_eos.py:321-340"]}
{"id": "C90", "title": "Result files read and exported through the general HDF5 reader", "statement": "QuantasHDF5Reader hands over every stored array, row, column and attribute as it is, answers a request for a missing array with a text naming it, and lists each array in alphabetic order with description and unit; a missing attribute is a KeyError, an index out of range is a text or an IndexError depending on the version of h5py. QuantasHDF5Export recognises quasi-harmonic files whatever the job is called and harmonic files unless their job says (QHA); a dialogue that names stored properties ends normally and leaves one file per property, in order, under the typed or the offered name, with that property's values, variables, title and unit; whatever is typed, no other complete or foreign table is written. Deviations that are proved: an unknown name never leads to the prepared error message but ends the session with KeyError; variables and zero-point energies leave a cut off file and an IndexError; thermal expansions are shown with 8 decimals only; the text of a quasi-harmonic file never tells the job.", "quantifier": "all result files, keys, indices, job names, grids and results, all sequences of typed lines", "why_tests_cant": "the dialogue has unboundedly many inputs and the tables unboundedly many values; tests of single exports cannot show that no typed sequence writes a wrong file or shows the error text", "anchors": ["quantas/IO/hdf5_reader.py:13-93", "quantas/IO/hdf5_export.py:23-294", "quantas/qha/qha.py:1229-1298", "quantas/harmonic/harmonic.py:296-336"]}
{"id": "C91", "title": "Unit conversions in double precision", "statement": "With the rounding of float64 the converters of units.py keep what they promise: for values of ordinary size the SI value of the result differs from that of the argument by at most 32 units of roundoff (3.6e-15, relative), converting back returns the value within 64 of them, energy densities and pressures likewise; temperatures, whose scales are shifted, within 64 units of |v| + 500 kelvin, and back within 260. Whatever the values (huge, tiny, infinite): the order is never reversed, a change of sign commutes with every conversion but those of temperatures, NaN stays NaN, the accepted scale names do not depend on the value; between names of the internal scale the value is returned unchanged, and pressures whose value in pascal and in the new unit are doubles convert without error. Deviation proved: a conversion from a scale to itself need not return the number (0.7000000000000001 kbar to kbar, 0.1 C to C).", "quantifier": "all doubles (bounded in size only for the error bounds), all scale names, all constants of plausible size", "why_tests_cant": "rounding errors depend on the values; tests compare a few values with a tolerance and cannot bound the error or exclude a reversal of order for every double", "anchors": ["quantas/utils/physics/units.py:50-613"]}
{"id": "C92", "title": "Enthalpy, Gibbs energy, adiabatic modulus and Grueneisen parameter in double precision", "statement": "With the rounding of C doubles the functions of thermodynamics.pyx keep what they promise: at zero pressure H and G are U and F bit for bit; U not below F gives H not below G, a higher pressure never a lower H or G, for every double; H and G are within one rounding of the sum plus 15 units of roundoff of the pV term; KS is KT at zero temperature, zero heat capacity or zero expansion bit for bit, never below KT, within 46 units of roundoff (5.2e-15) of KT(1 + alpha^2 KT V T/Cv); gamma within 18 units, with the sign of the expansion; KS = KT(1 + alpha gamma T) with the computed gamma within 70 units; the result does not depend on the interleaving of the threads, bit for bit. Deviation proved: a nonzero heat capacity below 2^-1022 makes both NaN where the exact values are KT and 0.", "quantifier": "all doubles including infinities and NaN for order, fallbacks and schedules; all doubles of ordinary size for the error bounds; all array sizes and interleavings", "why_tests_cant": "rounding errors and overflow depend on the values, interleavings on the machine; no set of samples bounds the error or excludes a KS below KT", "anchors": ["quantas/utils/physics/thermodynamics.pyx:17-206"]}
{"id": "C93", "title": "The log file of a run holds exactly what was said, in order", "statement": "For every command and every calculator: a run that completes leaves a log which is exactly the title, the settings, everything the calculator said in the order it was said, the line on the saved file and the references; a refused file leaves a log that ends with the reason, an exception one that stops before it, an incomplete job one that ends with the error banner and the reason; 'Results not saved' is there exactly when the user keeps the old file; nothing but the log and the result file is touched; --quiet changes nothing in the log and --debug only adds lines that begin with 'Debug: '. The references of each command name the DOIs of the methods that command uses, and no other (the harmonic command prints the quasi-harmonic reference).", "quantifier": "all commands, calculators, input texts, options, answers and file systems", "why_tests_cant": "a test compares the log of a few runs; that no message is lost, doubled or out of place depends on every path through the command and on the content of the disk", "anchors": ["quantas/cmdline/utils/messages.py:22-199", "quantas/citations.py", "quantas/soec/commands/cmd_soec.py:54-122", "quantas/harmonic/commands/cmd_ha.py", "quantas/qha/commands/cmd_qha.py"]}
{"id": "C94", "title": "quantas soec FILE end to end: from the text of the file to the log and the result file", "statement": "For every input file that holds a name, the 36 moduli of a symmetric matrix or the 21 of its upper triangle, and possibly a density: the command ends normally; the log names the file, the job, the crystal system with the most symmetry that holds within 0.001, the density, the moduli and their inverse in rows of six; the Voigt, Reuss and Hill averages and the velocities are those of these moduli, the eigenvalues of a positive definite matrix are positive; the tables give the least and the largest Young's modulus, linear compressibility, shear modulus, Poisson's ratio and wave velocity over all directions with the directions where they occur; the result file holds the same numbers, and with --polar the values along 360 directions of each plane; the full and the triangular form give the same log and the same result; nothing but these two files is written. A refused file leaves its reason at the end of the log and no result; a singular matrix ends the command with ValueError. Deviations proved: a matrix taken as orthorhombic is analysed without its small couplings (the tables are those of the pruned compliances); an unstable crystal is analysed, saved and announced like a stable one.", "quantifier": "all texts, matrices, densities, options and file systems, all results of the external inverse, eigenvalue and search routines that meet their contracts", "why_tests_cant": "a test runs the command on a few crystals; the agreement of the log with the moduli of every file, the true extremes over all directions and the untouched rest of the disk are statements over all of them", "anchors": ["quantas/soec/commands/cmd_soec.py:54-141", "quantas/soec/soec.py:94-115", "quantas/soec/soec.py:162-299", "quantas/soec/soec.py:530-570", "quantas/soec/utils/soec_obj.py:78-102", "quantas/soec/utils/soec_obj.py:482-580", "quantas/IO/soec_reader.py"]}
{"id": "C95", "title": "quantas ha FILE end to end: from the text of the file to the log and the result file", "statement": "For every document with a name, a supercell, volumes, as many energies, and for each listed q-point a weight and the frequencies of all modes at every volume (q-points that are announced but not listed count nothing): the command ends normally; the log repeats the temperature range and the units asked for, names the file and the job, and lists the numbers of volumes, atoms, k-points and frequencies and each volume with its energy; the result file holds the volumes, the energies, the temperatures lo, lo+step, ... until hi is reached or passed, and at each temperature and volume the weighted mean over the q-points of the zero-point energy, the thermal energy, the entropy and the heat capacity of the oscillators, with Utot = U0+Uzp+Uth and F = Utot - T*S, in the energy unit asked for (entropy and heat capacity in thousandths of it); nothing but these two files is written. A file written by quantas inpgen gives the results of the outputs it was written from, up to the digits it holds. A file that is not YAML or misses a section is refused with the reason at the end of the log. Deviations proved: an empty document ends in AttributeError, a step of zero in ZeroDivisionError, fewer energies than volumes, one number as volume, or more q-points than announced in IndexError; with more energies than volumes the run completes and stores columns of Utot and F computed from whatever is in memory.", "quantifier": "all texts, documents, options and file systems", "why_tests_cant": "a test runs the command on one or two crystals; that every stored number is the sum over the oscillators of the file, in the unit stated beside it, is a statement over all documents, units and temperature ranges", "anchors": ["quantas/harmonic/commands/cmd_ha.py:61-161", "quantas/harmonic/harmonic.py:99-336", "quantas/IO/qha_reader.py:43-164", "quantas/IO/qha_writer.py"]}
{"id": "C96", "title": "quantas qha FILE end to end: from the text of the file to the log and the result file", "statement": "For every document with at least four distinct volumes, as many energies, and the weights and frequencies of the listed q-points at every volume, and a least-squares fit (and, for polynomials, exact roots): if the harmonic free energies of the document have a minimum of F+PV at every temperature and pressure asked for (or the equation of state can be fitted to them), the command ends normally and writes nothing but the log and the result file. The stored volume is the minimum of the polynomial that fits the isotherm plus PV (or the volume of the best curve of the chosen equation of state); U, S, Cv, F at that volume are the fitted isotherms (thermodynamic scheme) or the sums over oscillators with fitted frequencies (frequency scheme); F = Utot - T*S, H-Utot = G-F = P*V, the moduli are those of the free energy, alphaV is the forward slope of the stored volumes, Cp-Cv = alpha^2*KT*V*T, KS/KT = Cp/Cv, for at least 50 temperatures. The log states scheme, minimisation, ranges, the input table with pressures from the static energies, and tables of the stored numbers per pressure with their units. Files which are not YAML, miss a section or hold fewer than 4 volumes are refused with a reason. Deviations proved: fewer than 50 temperatures store zeros for alphaV, Cp, Cp-Cv and gruneisen and KS=KT; a single temperature and pressure without a minimum ends the whole run in IndexError; --acoustic always ends in AttributeError; an empty document AttributeError, one number as volume TypeError, unequal numbers of energies and volumes ValueError, a step of zero ZeroDivisionError.", "quantifier": "all texts, documents, options, fits that are least squares, and file systems", "why_tests_cant": "a test compares one crystal with stored numbers; that each stored column is the quantity its name and unit say, for every document, unit, scheme and range, and that a run which cannot be completed writes no result, is a statement over all of them", "anchors": ["quantas/qha/commands/cmd_qha.py:50-250", "quantas/qha/qha.py:144-184", "quantas/qha/qha.py:322-478", "quantas/qha/qha.py:480-934", "quantas/qha/qha.py:1192-1300", "quantas/IO/qha_reader.py:43-164"]}
{"id": "C97", "title": "quantas eosfit FILE end to end: from the text of the file and the answers of the user to the log", "statement": "For every file in the documented layout, with pressures and at least one of V, a, b, c: whatever fits the user asks for one after the other (data set, formulation, order, start values, kept parameters, weights), the command ends normally, changes no file but the log, and the log holds the rows of the file and, in the order asked, one report for each fit, of scipy's result for exactly the columns, weights, formulation, order, start values (three times the modulus for an axis) and kept parameters asked for. Whatever is typed, the run either ends normally after at least one fit or aborts when the answers run out, and every report in the log is of a fit of data in the file, with a formulation and order of the menu, weighted only with uncertainties in the file. Files without structural data or with DATA before FORMAT are refused by name. Deviations proved: no pressure column ends in KeyError, a missing or unreadable number in IndexError or ValueError, data that np.polyfit cannot guess on in its exception after the formulation is chosen, and -o always in UnboundLocalError.", "quantifier": "all texts, answers, guesses, ODR results and file systems", "why_tests_cant": "the command is interactive: a test can replay one transcript, while the claim is about every sequence of answers and every file", "anchors": ["quantas/eosfit/commands/cmd_eosfit.py:34-112", "quantas/eosfit/eosfit.py:46-280", "quantas/eosfit/utils/interactive.py:66-387", "quantas/IO/eos_reader.py:159-300"]}
{"id": "C98", "title": "quantas export ha|qha FILE end to end: from the result file and the answers of the user to the tables on disk", "statement": "Given the result file of a completed ha or qha run, for every sequence of requests (which quantity; keep the offered name, agree to replace an existing file, or give another name; more or not) the command ends normally and the file system afterwards is exactly the one with the requested tables written, each table holding the temperatures, pressures (or volumes) and values of the array asked for with its name and unit. Whatever is typed, an existing file changes only if the user agreed to replace it or typed its name, every file that changes is at the offered or a typed name, and no file disappears. Missing files, directories, files that are not HDF5, files without the quantas attribute or without the two axes, and the file of the other kind of calculation are refused with a message and nothing changes. Composed with C95 and C96: the exported tables after a run hold the quantities of that calculation. Deviations proved: a typed name is not checked, so the result file itself can be overwritten; the static energies of a harmonic file are offered but end the export with IndexError after the first temperature, leaving a broken-off file; an array without a unit ends it with KeyError.", "quantifier": "all result files, answers, decoders and file systems", "why_tests_cant": "the command is interactive and writes files: a test replays one transcript, while the claim is about every sequence of answers and every file system", "anchors": ["quantas/harmonic/commands/cmd_export.py:35-65", "quantas/qha/commands/cmd_export.py:35-65", "quantas/harmonic/utils/export.py:20-98", "quantas/qha/utils/export.py:20-98", "quantas/harmonic/utils/table.py", "quantas/qha/utils/table.py"]}
{"id": "C99", "title": "quantas export soec FILE end to end: from the result file and the answers of the user to the polar tables on disk", "statement": "Given the result file of an elastic run with --polar, for every sequence of requests (which property; keep the offered name, agree to replace an existing file, or give another name; more or not) the command ends normally, the file system afterwards is exactly the one with the requested tables written, and the screen shows the whole conversation. Each table has the angles 0 to 360 degrees and, for the three planes side by side, Young's modulus, linear compressibility (positive and negative part), least and greatest shear modulus and Poisson's ratio of the perpendicular directions, or the velocities of the crystal in the input file of the run, with the unit stored; the velocities are offered exactly when there is a density. Whatever is typed, an existing file changes only if the user agreed to replace it or typed its name, everything written is a complete table with the title of what was chosen, and the command ends normally, by the end of the input, or by one of three named exceptions. Files that cannot be exported are refused with a message and nothing changes. Deviations proved: without --polar all five tables are offered and hold one line of zeros; in a file without arrays of the property chosen, the numbers and unit of the table exported before are written again under the new title.", "quantifier": "all result files, crystals, answers, decoders and file systems", "why_tests_cant": "the command is interactive and writes files: a test replays one transcript on one crystal, while the claim is about every sequence of answers, every crystal and every file system", "anchors": ["quantas/soec/commands/cmd_export.py:35-65", "quantas/soec/utils/export.py:20-95", "quantas/soec/utils/table.py", "quantas/soec/soec.py:301-379"]}
{"id": "C100", "title": "quantas inpgen ha FILE end to end: from the outputs of CRYSTAL or phonopy on disk to the input file, and on to the results of quantas ha", "statement": "Given one output, or a list of outputs, of CRYSTAL frequency runs (at the zone centre, or on a mesh of q points from a supercell), the command ends normally and the one file it changes is OUTFILE.yaml, which loads as YAML and holds for every output in order the volume, energy and frequencies it prints (of one unit cell of the supercell), within half a unit of the last digit written, and the atoms, expansion, q points, positions (coordinates divided by the mesh) and truncated weights of the reference output; the job is what the user typed; the files, the reference and the path are announced in order. The same for phonopy (three files per volume) and for the single output of a CRYSTAL QHA run. The file is an input of quantas ha whose results then belong to the numbers printed by the outputs. For any files, options and answer, no other file ever changes, and the farewell is shown exactly when all lines of the output were written. A missing file, an output without frequencies, a directory instead of the file, a list for --crystal-qha and a reference beyond the number of files are refused with a named message. Deviations proved: an existing OUTFILE.yaml is replaced without a question; a reference equal to the number of files (or an empty list) is an IndexError after the description was typed; a negative reference counts from the end but is never announced; a binary file in the list is reported under the name of the list; a directory in the list is an exception; an output whose table of frequencies is too short makes the command run forever.", "quantifier": "all texts of outputs with the printed shape, all lists, references, answers and file systems, any YAML and XML parser", "why_tests_cant": "a test converts one set of sample outputs; the claim is about every output of the printed shape, and about what is left on disk after every failure", "anchors": ["quantas/harmonic/commands/cmd_inpgen.py:52-105", "quantas/IO/qha_writer.py:34-211", "quantas/interfaces/crystal.py:64-482", "quantas/interfaces/phonopy.py:51-121"]}
{"id": "C101", "title": "The chains of commands: quantas inpgen ha then quantas qha, and quantas inpgen soec then quantas soec, from the outputs of the ab initio code to the results", "statement": "(1) When quantas inpgen ha is given outputs of CRYSTAL at enough distinct volumes and quantas qha is then run on the file it wrote, both end normally, and the equilibrium volumes, and the potentials at them, are those of the volumes, energies and frequencies printed by the outputs, rounded to the digits the generator writes (8 decimals of the volume, 13 significant digits of the energy, 10 decimals of the frequencies): with the polynomial minimisation every V(P,T) minimises F + PV of the fit of the isotherm within the bracket, and at it F = U - TS, H = U + PV and G = F + PV. Volumes further apart than the digits written stay distinct. (2) When quantas inpgen soec is given a CRYSTAL output and quantas soec is run on its file, both end normally; the job is the description typed; the log and the result file hold one symmetric matrix, every modulus of which is within 5e-5 GPa of the printed one, as are the Voigt bulk and shear moduli, and a density within 0.05; the output itself and all other files are unchanged; a crystal stable by more than 3e-4 GPa is still stable. Deviations proved: after a VASP output with unequal yz and zx shears the matrix saved is that of another crystal (the Voigt averages are right) and the density is missing; a crystal stable by only 4e-5 GPa is written as the zero matrix.", "quantifier": "all outputs of the printed shape, all descriptions, paths, file systems, options, any inverse, eigenvalue solver, minimiser and rounding which meet their documentation", "why_tests_cant": "the commands are tested one by one, on stored inputs; what is lost between the two by writing and reading decimal text can only be bounded for all values by proof", "anchors": ["quantas/harmonic/commands/cmd_inpgen.py:52-105", "quantas/qha/commands/cmd_qha.py:117-194", "quantas/soec/commands/cmd_inpgen.py:38-95", "quantas/soec/commands/cmd_soec.py:55-127", "quantas/IO/qha_writer.py:105-157", "quantas/IO/soec_writer.py:56-83"]}
{"id": "C102", "title": "The starting values of the fits are the state they claim to estimate", "statement": "EnergyEOS.guess returns, for energies at five or more distinct volumes, the stationary point of the least-squares quartic which lies nearest to zero in the complex plane, by its real part, with the energy and V d2E/dV2 of the quartic there and K' = 4; it raises ValueError exactly when the quartic has no stationary point, and TypeError for empty data. For energies on a parabola the result is the one documented: V0 = -b/2a, E0 = E(V0), K0 = 2aV0. Another unit or zero of the energies, or another unit of volume, gives the same state when the nearest stationary point is determined. EnergyEOS.fit starts from this guess with the formula of the tag, passes exceptions on, raises TypeError for an unknown tag, and its errors are the square roots of the variances. EOS.guess of eosfit returns the volume at zero pressure of the cubic fitted to V(P), -V dP/dV there of the cubic fitted to P(V), K' = 4 and K'' = 0; it is exact for data on a straight line, and V0 is the volume of the point at zero pressure when there are four points. Deviations proved: the guess need not be a minimum: with five volumes around the minimum of a quartic it can lie outside of them with a negative bulk modulus; for an axis the guess is already the linear modulus the fitted curve uses, and the fit starts from three times that value.", "quantifier": "all volumes, energies and pressures, any least-squares solver and exact root finder, any curve_fit", "why_tests_cant": "a test fits one stored data set from which the optimiser recovers; which stationary point the guess takes depends on the roots of the cubic of the data", "anchors": ["quantas/qha/utils/ev_eos.py:67-156", "quantas/eosfit/utils/pv_eos.py:43-69", "quantas/eosfit/utils/pv_eos.py:138-148"]}
{"id": "C103", "title": "Energies at enough volumes determine the parameters of an equation of state", "statement": "For each of the four energy forms, two sets of parameters with positive K0 and V0 (and K' where the formula is defined) which give the same energies at four or more distinct volumes, five for Vinet, are equal. So when the energies come from an equation of state and the curve returned by EnergyEOS.fit goes through them, the parameters returned are those of that equation of state. Three volumes are not enough (proved for Poirier-Tarantola).", "quantifier": "all parameters, all sets of volumes, any guess, any fitting routine", "why_tests_cant": "uniqueness over all real parameters is not a matter of samples", "anchors": ["quantas/qha/utils/ev_eos.py:67-156", "quantas/qha/utils/ev_eos.py:158-332"]}
{"id": "C104", "title": "The volume found by fitting an equation of state to F + PV", "statement": "With the eos minimisation the quasi-harmonic calculation fits F + PV at each pressure. For a solid whose free energies follow a Murnaghan equation of state F + PV is again a Murnaghan curve, and when the fit goes through its points the volume returned is the one at which that equation of state has the pressure P, the only minimum of F + PV over all positive volumes; the bulk modulus returned is K0 + K'P in the unit of pressure, and K' is unchanged. From end to end: `quantas qha FILE --minim eos --eos M` on a document whose isotherms follow Murnaghan equations of state writes these volumes, moduli and K' at every temperature and pressure, and with any formulation at zero pressure the parameters of the isotherms, when the fit finds curves which go through all points. Deviation proved: for the three other formulations and any pressure other than zero no curve of the same formulation goes through F + PV at five or more volumes (eight for Vinet), so that the fit under pressure never goes through the points, even for exact data.", "quantifier": "all parameters, volumes, pressures and units, any guess and fitting routine", "why_tests_cant": "stored results at a few pressures agree to the digits compared; that a formula is or is not closed under adding PV is a statement about all its curves", "anchors": ["quantas/qha/qha.py:961-1063", "quantas/qha/utils/ev_eos.py:67-156", "quantas/qha/commands/cmd_qha.py:50-250"]}
{"id": "C105", "title": "Pressures at enough volumes determine the fitted parameters, except at fourth order", "statement": "Two sets of parameters with positive K0 and V0 for which an equation of state of eosfit gives the same pressures at three distinct volumes (Murnaghan; Birch-Murnaghan and natural strain below fourth order) or four (Vinet; Tait of any order, where its coefficients are defined) evaluate the same K0, K', K'' and V0. So a fit to measurements without error which is as good, by the weighted sum of squares with or without shifts of the volumes, as the curve of the solid returns the parameters of the solid, whatever the weights and the start. Deviation proved: at fourth order the pressures fix the curve, and the parameters once V0 is known, but not V0: there are two solids, one with eight times the volume and 1/256 of the bulk modulus of the other, whose Birch-Murnaghan pressures are equal at every volume; likewise for natural strain.", "quantifier": "all parameters, orders, data types, volumes, weights and shifts; any fitting routine", "why_tests_cant": "uniqueness over all real parameters is not a matter of samples; the two solids of fourth order pass any comparison of pressures", "anchors": ["quantas/eosfit/utils/pv_eos.py:88-159", "quantas/eosfit/utils/pv_eos.py:220-223", "quantas/eosfit/utils/pv_eos.py:249-340", "quantas/eosfit/utils/pv_eos.py:456-550", "quantas/eosfit/utils/pv_eos.py:663-741", "quantas/eosfit/utils/pv_eos.py:855-943"]}
{"id": "C106", "title": "The seismic command turns a file of elastic moduli into the waves of the crystal on a half sphere", "statement": "quantas seismic FILE with a symmetric matrix (whole or upper triangle), a density other than zero and two or more angular points of each kind writes a log with the settings, the name, the density and both matrices, and a result file with three tables of ntheta x nphi rows, and nothing else. For a stable crystal the rows of a node hold, for the direction of the node, three waves of the crystal: velocities which solve Christoffel's equation, ordered, with orthonormal displacements; the group velocity of the textbook formula, whose component along the direction is the phase velocity and whose length is not smaller; the power flow angle within the rounding of its cosine; and both velocities relative to those of the Hill average. For isotropic moduli velocities do not depend on direction, relative velocities and angles are zero. The two forms of a file give the same log and results. A file without density, too short or with words is refused with the reason at the end of the log; a singular matrix or negative numbers of points raise ValueError; no result is written. Deviations proved: one point along an angle raises ZeroDivisionError after the input was reported; no points give a result file with empty tables; --nphi 720 is replaced by four times ntheta; an unstable crystal is not refused, its velocities are saved as negative numbers.", "quantifier": "all files, moduli, densities, names, numbers of points, answers and states of the disk; any right eigenvalue solver", "why_tests_cant": "a test runs one crystal at a few points; that every row of every run describes waves of the crystal in the file is a statement about all matrices and directions", "anchors": ["quantas/seismic/commands/cmd_seismic.py:65-192", "quantas/seismic/seismic.py:72-298", "quantas/seismic/utils/seismic_obj.py:121-659"]}
{"id": "C107", "title": "quantas export seismic FILE end to end: from the result file and the answers of the user to the tables of waves on disk", "statement": "For a result file of quantas seismic a session of quantas export seismic writes, for each request, the table of the wave asked for (slow secondary, fast secondary or primary): a heading which names that wave only, and one line of fourteen rounded numbers for each stored row, in their order; the screen shows the whole conversation. Chained to quantas seismic, the lines of a node in the three tables are three waves of the crystal in the input file along the direction of the node, slowest first, with orthogonal displacements. Whatever is typed, the session ends, is interrupted or fails on the name of a directory; a file which was there is replaced only if the user agreed or typed its name, and only complete tables of the wave asked for are written. Files which are not readable, not of Quantas or not of a seismic run change nothing. Refuted: a table always shows the wave it is named after (without such a dataset, the numbers of the table before are written again under the new heading).", "quantifier": "all result files, numbers, sequences of typed lines and states of the disk", "why_tests_cant": "the answers of the user and the files on disk are unbounded; tests try single conversations, if any", "anchors": ["quantas/seismic/commands/cmd_export.py:35-65", "quantas/seismic/utils/export.py:21-106", "quantas/seismic/seismic.py:259-298"]}
{"id": "C108", "title": "From the output of CRYSTAL or VASP to the tables of seismic waves: inpgen soec, seismic, export seismic in a row", "statement": "When `quantas inpgen soec` is run on an output of CRYSTAL, `quantas seismic` on the file it wrote and `quantas export seismic` on the result of that, all three end normally for a crystal stable by more than 3e-4 GPa and denser than 0.05 kg/m^3. The log shows the description typed and the density; the tables have one line for each node with three waves of a crystal whose moduli are within 5e-5 GPa and whose density is within 0.05 kg/m^3 of those printed; and, in order, density times squared velocity differs from that of the three waves of the printed crystal by 0.6 MPa at most, for any direction and any anisotropy; for a crystal stable by m GPa the velocities themselves differ by the fraction (3e-4/m + p)/(1 - p) at most, p being 0.05 kg/m^3 divided by the density. Refuted for VASP: its outputs have no density and none is asked for, so the generated file is refused by `quantas seismic` with 'Density not provided, calculation aborted' and no result file is written; refuted also for densities below 0.05 kg/m^3, of which the file keeps 0.0.", "quantifier": "all outputs, moduli, densities, descriptions, numbers of nodes, file names and states of the disk", "why_tests_cant": "how rounding the moduli moves three ordered velocities in every direction of any crystal is a statement about all tensors; tests run each command on one stored file", "anchors": ["quantas/soec/commands/cmd_inpgen.py:38-95", "quantas/IO/soec_writer.py:56-83", "quantas/seismic/seismic.py:130-298", "quantas/seismic/commands/cmd_seismic.py:65-154", "quantas/seismic/utils/export.py:21-106"]}
{"id": "C109", "title": "What the four decimals of an elastic input file cost: every modulus derived from the file stays within a fixed ratio of the printed crystal's", "statement": "`quantas inpgen soec` writes moduli with four decimals. For a crystal whose softest strain costs m GPa, m above 3e-4, every modulus which belongs to the file differs from the one which belongs to the printed moduli by the fraction 3e-4/m at most: the Voigt and Reuss averages of the bulk and shear moduli, their means, Young's modulus of each of the three, Young's modulus along every direction and the shear modulus in every plane and direction, so also their least and greatest values. The three wave velocities along any direction, in order, differ by the fraction (3e-4/m + d)/(1 - d) at most when the densities differ by the fraction d. Linear compressibilities and transverse strains change by that fraction of the compliances involved. The lines of the report of `quantas soec` on the generated file (Voigt, Reuss, Hill and the average wave velocities) say such values. Refuted without a margin: of a crystal stable by 1e-4 GPa the file may keep two thirds of every modulus.", "quantifier": "all pairs of symmetric matrices which agree within half a unit of the fourth decimal, all directions, all outputs of CRYSTAL, names of files and states of the disk", "why_tests_cant": "the compliance matrix and the extremes over all directions depend on all moduli together; a bound for every crystal is not a finite set of comparisons", "anchors": ["quantas/IO/soec_writer.py:56-83", "quantas/soec/commands/cmd_inpgen.py:38-95", "quantas/soec/utils/soec_obj.py:149-262", "quantas/soec/commands/cmd_soec.py:55-127"]}
