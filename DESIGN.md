# Formal model of iers2010 — design

## Approach

* The code under study is C++ in `/repo` (xanthospap/iers2010), read as text only. It is neither built nor run.
* The model is a set of total, computable Gallina functions (Coq 8.16.1) in `rocq/theories/`.
  Every definition carries a comment with the file and lines it models.
* Files come in families: `<Area>Model.v` (definitions only), `<Area>Spec.v` (small independent specification,
  where it is not a couple of lines), `<Area>Proofs.v` (lemmas), `<Area>Props.v` (property theorems only:
  each is `exact lemma`, followed by `Print Assumptions` and an `Example` showing the hypotheses are met).
* Where a property is false of the faithful model, a theorem `..._refuted` exhibits the witness, and
  a `..._partial` theorem proves the largest true part found.

## Modelling conventions

* **Undefined behaviour** (out-of-bounds access, null/dangling dereference, double free, signed overflow when the
  property is about it) is a distinct outcome (`UB`) of the model. `assert` is active in a release build without
  `NDEBUG`; a failing assert is the outcome `Abort`. `#ifdef DEBUG` asserts do not exist in the model.
* **Integers** are `Z` (unbounded) except in the overflow properties, where the C++ `int` range is explicit.
* **Matrix contents** are parametric: the element type is arbitrary with arbitrary `add`/`mul`, so the
  theorems hold verbatim for IEEE doubles. Uninitialised cells are `None`.
* **Numerical formulae** are modelled over Coq's reals `R` (rounding abstracted) unless the property is about
  rounding: compensated summation (Flocq's binary64 format model) and the error analysis of C70, where each
  operation of an expression returns any value within half a unit in the last place of the exact result, with
  binary64 evaluation as an instance.
* **Epochs** are reals or integers; the datetime library (`MjdEpoch`, `dat`, time scale conversions) is an external
  dependency absent from `/repo` and enters as parameters. Same for Eigen (its documented algebra is modelled:
  quaternion product, angle-axis, matrix product), CSPICE (list of loaded kernels), `std::ifstream` (list of lines).
* **Strings** are lists of characters (`ascii`/`string`), with C-string termination explicit where it matters.

## Trusted base

* Coq's kernel (8.16.1).
* Axioms listed by `Print Assumptions` under each property theorem. Only Stdlib axioms occur: those of the
  classical reals (`ClassicalDedekindReals.sig_forall_dec`, `sig_not_dec`,
  `FunctionalExtensionality.functional_extensionality_dep`, `Classical_Prop.classic`) in the theorems over `R`.
  Theorems over `Z`/lists are closed under the global context.
* The faithfulness of the transcription from C++ to Gallina, for the parts listed below.

## Plan per property

| Id | What is modelled | How it is proved |
|----|------------------|------------------|
| C01 | `index`, `num_elements` of the dense and triangular storage classes | arithmetic (`nia`), explicit inverse |
| C02 | trapezoid `index`, `slice`, `num_elements` (recursive sums) | induction over rows; refutation for aliased positions |
| C03 | `slice(i)`, `slice(i,n)`, `first_row_of_col` | equality of `index` and slice+offset; tiling |
| C04 | copy/resize/cresize on the heap model | per-operation lemmas on buffers |
| C05 | expression proxies as an inductive type; `+=`, construction | induction over expressions and loops |
| C06 | heap of live/freed blocks, objects with pointers, operation language | invariant; leak of move assignment refuted, rest proved |
| C07 | same | invariant by induction over operation lists |
| C08 | `StokesCoeffs::operator+=` on column slices | loop invariants over columns |
| C09 | dimension bookkeeping of all `StokesCoeffs` operations | invariant; moved-from object refuted |
| C10 | `scale` | pointwise; degree-0 case refuted |
| C11 | `char2int`, `int2char`, `str`, `from_chars` | finite character sweep lifted to all tuples |
| C12 | parser acceptance; IERS-2010 string resolver | characterisation of accepted strings; refutation for the resolver |
| C13 | `delaunay2doodson`, `argument` over R | ring identities modulo 2π |
| C14–C16 | `EopSeries::interpolate`, `approx_dut1` with cached iterator, `upper_bound`, node window (`EopModel.v`) | list lemmas on sorted series; Lagrange interpolation = the unique polynomial through the nodes (`Poly.v`); stale iterators, degrees ≤ 0, empty and unordered series refuted |
| C17 | `regularize` over R | pointwise inverse |
| C18 | both C04 parsers on lists of lines, `choose_c04_series`, `std::from_chars` (`FromChars.v`; the double scanner is a parameter) | induction over lines; a declarative reading of a file (`file_says`) |
| C19 | `filename`, `resolve_rl` on byte buffers (`Aod1bModel.v`) | computation on buffers; refutation of the compressed variant for all inputs |
| C20 | `Aod1bDataStream`: `initialize`, `hunt_range`, `feed_next_file`, `coefficients_at` on lists of blocks; every block readable, first epoch of the file header = epoch of its first block | position invariant over the concatenated files; refutation by concrete histories |
| C21 | `collect_coeffs` on lists of lines, `istream::getline` with its state flags | induction over lines; declarative line reading (`coef_line`) |
| C22 | `resolve_icgem_data_line_v1/v2`, dates, `parse_data_v1/v2` on characters (`IcgemModel.v`); uninitialised fields are `None`; dates to nanoseconds and years between epochs are parameters | declarative columns and records (`IcgemSpec.v`), induction over lines |
| C33 | record loop with abstract decoders | induction over lines |
| C23, C24 | `TwoDimGrid` (`GridModel.v`), every operation of the class with the rounding of floating-point results as a parameter; int products checked for overflow; binary64 by `spec_float` (`Float64.v`) and Flocq rounding | arithmetic; refutations with witnesses or for all inputs |
| C25 | atlas as list of waves, append/find (`AtlasModel.v`) | invariant over append histories |
| C26, C27 | name composition and parsing on characters, arrays with their sizes, backward scans (`AtlasModel.v`) | string lemmas; exact characterisation; refutations |
| C28 | accumulation loop on matrices in memory (`TideModel.v`), real arithmetic | induction on waves; refutations |
| C29 | pointer ownership automaton (`TideModel.v`) | invariant; refutation for move assignment |
| C30 | accumulator with its matrices in memory (`TideModel.v`) | refutation; partial (orders/degree monotone inputs) |
| C31 | formulas over R (`PoleModel.v`) | field and trigonometric identities |
| C32 | the whole call on matrices in memory, table bounds (`PoleModel.v`) | refutations; partial for degree < 360 and fresh object |
| C34 | the whole reader with its grid lookup and interpolation (`SiteModel.v`) | refutation of cell; exactness of interpolation |
| C35 | table search, interpolation, rotation (`FcnModel.v`) | list lemmas, reals |
| C36, C37 | both routines writing into matrices in memory (`AlfModel.v`); specification: derivatives of (x^2-1)^n as coefficient lists (`AlfSpec.v`) | uniqueness of derivatives (`AlfMath.v`), loop invariants; refutations |
| C38, C39, C62 | the whole routine and its wrapper, matrices in memory (`CunModel.v`, assumptions in `CunReady.v`); specification: solid harmonics and partial derivatives (`CunSpec.v`) | derivative formulas of solid harmonics (`CunMath.v`, `CunMath2.v`), loop invariants with shared cells, sums; refutations |
| C40 | both overloads over the reals (`PmModel.v`, vectors in `Vec.v`); specification: attraction and disturbing potential (`PmSpec.v`) | derivatives along arbitrary differentiable paths |
| C41 | table, decimal text in a byte buffer; CSPICE functions as parameters (`PlanetModel.v`); specification: NAIF numbering rule and decimal texts (`PlanetSpec.v`) | enumeration; lists |
| C42 | list of loaded names, meta-kernels, name truncation (`PlanetModel.v`) | induction over requests; refutations |
| C43–C45 | quaternions and rotation matrices of Eigen, all functions of `earth_rotation.hpp` and the functions for an epoch over R (`RotModel.v`); specification: IERS rotation matrices (`RotSpec.v`) | half angle identities, ring, derivability |
| C46–C48 | fundamental arguments with `fmod` truncating, their derivatives and overloads, `era00`, `gmst`, `dgmst`, `gmst82` over R (`FundModel.v`); specification: IERS coefficient lists and formal derivative (`FundSpec.v`) | polynomial derivative, truncation locally constant, congruence modulo a turn; decimal bounds for pi (`PiBound.v`) |
| C49 | the three terms and the scaling to kilometres over R (`RelModel.v`); specification: IERS (10.12) (`RelSpec.v`) | field, coordinates |
| C50 | cartesian to spherical, step 1 (anelastic and elastic), the 71 step 2 waves, constructor, placement over the storage model (`SolidModel.v`); specification: IERS (6.6) to (6.8) in complex form and Tables 6.5a to 6.5c (`SolidSpec.v`) | trigonometry, addition theorem, computation on the table |
| C51 | `KahanSum` over binary64 of Flocq (`KahanModel.v`), the test program `kahan.cpp` (`KahanTest.v`); specification: exact sums of real numbers (`KahanSpec.v`) | Flocq: error free transformation, relative error of additions; induction over the sequence; the test by computation (`KahanTestProofs.v`) |
| C52 | integer products with explicit int range (`AlfModel.v`) | `nia`, refutation at the first failing degree |
| C53 | `to_anm`, `from_anm` as sequences of writes | write-set lemmas, round trip |
| C54 | StokesCoeffs copies on the heap model | frame lemmas |
| C55 | wave tables and lookups | finite check of distinct keys lifted to all queries; number lookup refuted for parsed numbers |
| C56 | atmospheric table speeds | finite check; L2 refuted |
| C57 | AOD1B stream objects: iterator target and coefficient array (`Aod1bModel.v`) | invariant over operation lists without moves; refutations for moves |
| C58 | `parse_header` on lines of characters (`IcgemModel.v`) | items set by keyword lines; refutations on concrete headers |
| C59 | file list and atlas assembly, the gfc reader a parameter (instance: the ICGEM model) | invariant over the files read |
| C60 | Doodson and (dense) admittance files | word lemmas of the ICGEM part; refutations |
| C61 | the whole reader, lines with a return code (`FcnModel.v`) | induction over lines, selection relation |
| C63 | as C41 | rewriting, CSPICE agreement as hypothesis |
| C64 | step 1 (combined and deprecated functions), step 2 with both tables, rotation to Earth-fixed axes over R (`SsdModel.v`); specification: IERS (7.5) to (7.13) and gradient of the tide-raising potential (`SsdSpec.v`) | trigonometry, polynomials in the direction cosines, derivatives, computation on the tables |
| C65 | loops and tables of the four EOP tidal variation functions over R (`EtvModel.v`); specification: IERS Tables 5.1, 8.1, 8.2, 8.3, derivative with respect to time (`EtvSpec.v`) | computation on the tables with integer bounds of the rates, derivatives of trigonometric sums |
| C66 | header skipping, block headers, goto_next_block, block iterator and tidal reader on streams with eofbit and failbit (`AodBlockModel.v`); specification: text grammar of blocks and tidal files (`AodBlockSpec.v`) | induction over blocks and lines; soundness of acceptance by inversion |
| C67 | header reader line by line with the character arena, constructor, copies and moves (`AodHeadModel.v`); specification: labels, items and grammar of header lines, last stated value (`AodHeadSpec.v`) | one lemma per kind of line, fold over items; texts by cutting the arena into pieces; soundness of acceptance by inversion over the branches |
| C68 | all tables of `src/lib/iau` as integers (`CipTab*.v`), both versions of the CIP coordinates and the CIO locator over R (`CipModel.v`); specification: polynomial plus Poisson series, Table 5.2d (`CipSpec.v`) | permutation of tables decided by computation, sums invariant under permutation, congruence modulo a turn, continuity by induction over rows |
| C69 | `Clock` with its name buffer, times as ticks (`ClockModel.v`); specification: laps and their mean (`ClockSpec.v`) | integer quotients, buffers |
| C70 | expressions with rounding at each operation (`FlModel.v`), binary64 evaluation (`FlFloatModel.v`), the series and arguments as such expressions (`FlCipModel.v`, `FlCip64Model.v`); specification: the series of `CipSpec.v` | a verified a-priori error analysis, computed on the tables |
| C71 | `era00`, `gmst`, `gmst82`, `sp00` as rounded expressions (`FlEraModel.v`); specification: the angles of `FundSpec.v` | error analysis of C70 carried through the reduction to a turn |
| C72 | `deop_libration`, `deop_ocean_tide`, `deop_zonal_tide`, `delaunay2doodson` and `argument` as rounded expressions (`FlEtvModel.v`); specification: the series of `EtvSpec.v` | error analysis of C70 through three reductions to a turn; bounds checked wave by wave with short numbers (`FlFast.v`) |
| C73, C74 | both routines as rounded expressions and in binary64 (`FlAlfModel.v`); specification: the functions of `AlfSpec.v` | addition theorem (`AlfSum.v`), stability of the recurrence by columns (`AlfStable.v`, `AlfError.v`, `AlfGrow.v`), local errors as in C70; the pole by evaluation in Flocq |
| C75 | the functions M and W as rounded expressions (`FlCunModel.v`); specification: solid harmonics of `CunSpec.v` | division by powers of the distance, then the columns as in C73; the diagonals in the Euclidean norm of (M, W) (`FlCunProofs5.v`), spherical coordinates (`FlCunProofs6.v`) |
| C76 | terms and sums of the acceleration and the gradient as rounded expressions (`FlGravModel.v`); specification: derivatives of the geopotential of `CunSpec.v`, bounds in `FlGravSpec.v` | an error calculus for expressions: error in units of 2^-53 of the sum of the sizes (`FlGravProofs.v`), the expressions are the terms of C62 (`FlGravProofs2.v`), their sizes (`FlGravProofs3.v`), the number of additions after each (`FlGravProofs4.v`), sums (`FlGravProofs5.v`) |
| C77 | `EopSeries::interpolate` and `approx_dut1` as runs with rounded operations (`FlEopModel.v`); specification: interpolating polynomial of `EopSpec.v`, weights and condition number (`FlEopSpec.v`) | products and quotients with the calculus of `FlGravProofs.v`, one factor, sums (`FlEopProofs.v`), the whole call (`FlEopProofs2.v`) |
| C78 | `point_mass_acceleration` and `iers2010_relativistic_acceleration` as rounded expressions (`FlVecModel.v`); specification: `PmSpec.v`, `RelSpec.v`, sizes in `FlVecSpec.v` | a calculus of errors in hundredths of 2^-53 with ranges of the exponents (`FlVecProofs.v`), norms, inner and vector products (`FlVecProofs2.v`), third body (`FlVecProofs3.v`), relativity (`FlVecProofs4.v`) |
| C79 | readers of the COST-G programs and `basename` (`CostgModel.v`); specification: `CostgSpec.v` | lines read one by one, three outcomes (`CostgProofs.v`) |
| C80 | loops of the check programs as lists of stages, arguments of the calls in seconds (`CheckModel.v`); specification: records side by side, time scales (`CheckSpec.v`) | one description per program, one induction over the orbit (`CheckProofs.v`) |
| C81 | sums in any order, Eigen products, `c2i`, `c2tirs`, `tirs2i`, `xycip2spherical` as relations of rounding (`FlRotModel.v`); specification: distances of quaternions (`FlRotSpec.v`) | induction over the tree of additions, Cauchy-Schwarz, chords (`FlRotProofs.v`, `FlRotProofs2.v`); binary64 instance (`FlRotProofs5.v`) |
| C82 | `c2i06a` in both versions as relations of rounding (`FlRotModel.v`); specification: the transformation of chapter 5 for an epoch (`FlRotSpec.v`) | sizes of the series (`FlRotProofs3.v`), quaternion of the celestial motion without angles (`FlRotProofs4.v`), existence of runs (`FlRotProofs5.v`) |
| C83 | `gcrs2itrs_quaternion`, `c2i06a_bz`, `C`, `dRdt`, `earth_rotation_rate`, matrix products and `c2i06a` with a derivative as relations of rounding (`FlBzModel.v`); specification: the motion of the rotation (`FlBzSpec.v`) | calculus of sizes and errors (`FlBzProofs.v`), matrices, limits, existence of runs (`FlBzProofs2.v`) |
| C84 | Python strings, dictionaries and exceptions (`PyModel.v`), `mergeAod1b.py` (`AodMergeModel.v`); specification: files as lines with a label and a value, dates of observations, the merged entries (`AodMergeSpec.v`) | strings and dictionaries (`PyProofs.v`), reading (`AodMergeProofs.v`), merging and the text written (`AodMergeProofs2.v`) |
| C85 | `run_test_suite.py` (`TestSuiteModel.v`); specification: texts without blanks, lines, words, numbers within a precision, programs that pass (`TestSuiteSpec.v`) | `TestSuiteProofs.v` |
| C86 | `getAod1b.py` (`AodGetModel.v`); specification: names of products and directories (`AodGetSpec.v`) | `AodGetProofs.v` |
| C87 | pole tides with rounding (`FlPoleModel.v`); specification: `FlPoleSpec.v` and that of C31 | `FlPoleProofs.v` |
| C88 | the generator `tables52ab.py` (`CipGenModel.v`) and its tables (`CipTabScript.v`); specification: series of a list of tables, order of the groups (`CipGenSpec.v`) and that of C68 | `CipGenProofs.v` |
| C89 | the reference programs `UTLIBR_D0.F` and `PMSDNUT2_D0.F` (`FortLibModel.v`); specification: sidereal time at a date, the three waves (`FortLibSpec.v`) and those of C48 and C65 | `FortLibProofs.v` |
| C90 | the example program `eop_interpolation.cpp` (`ExEopModel.v`); specification: table without zonal tides, short period variations, a printed line, number of epochs (`ExEopSpec.v`) and those of C14, C48 and C65 | `ExEopProofs.v` |
| C91 | the example program `pole_tide_displacement.cpp` (`ExPoleModel.v`); specification: displacements by (7.26) and (7.29), pole at an epoch, the lines of an epoch (`ExPoleSpec.v`) and those of C14, C31, C34 and C90 | `ExPoleProofs.v` |
| C92 | `c2cpp_header.py` (`HdrModel.v`); specification: headers, backups, listings, lines in a block (`HdrSpec.v`) and lines as in C84 | `HdrProofs.v` |
| C93 | `xtractSatelliteState` of `apytest.py` (`Sp3Model.v`); specification: lines of epochs, positions and velocities (`Sp3Spec.v`), words and numbers as in C84 and C85 | `Sp3Proofs.v` |
| C94 | `d2s`, `cs40`, `CS1608` and `CS32` of the scripts that make reference values (`RefCsModel.v`); specification: Julian years, dates on digits (`RefCsSpec.v`), records and values as in C22 | `RefCsProofs.v` |
| C95 | the readers and the matching of `plot_eopdiffs_wrt_costg.py`, real numbers rounded to binary64 after every operation (`EopPlotModel.v`); specification: lines and rows, equal epochs (`EopPlotSpec.v`) | doubles of one binade are multiples of its spacing; Flocq (`EopPlotProofs.v`) |
| C96 | the reader of `cmdplt.py` (`CmdPltModel.v`); specification: words with one blank between them, titles (`CmdPltSpec.v`), files as in C95 | `CmdPltProofs.v` |
| C97 | the reader, `t2fdays` and `tfilter` of `plot_eop_example.py` (`EopShowModel.v`); specification: lines of a word and five numbers, points after four days (`EopShowSpec.v`) | `EopShowProofs.v` |
| C98 | `compare_pom`, `fromq` and `sofa` of `earth_quaternion.cpp`, SOFA's rotations as documented (`QuatTestModel.v`); specification: the rotations of the conventions (`RotSpec.v`) | `QuatTestProofs.v` |
| C99 | `regularize_impl` in binary64 and the assertions of `eop_regularize.cpp` (`RegTestModel.v`); specification: doubles, corrections in seconds (`RegTestSpec.v`) | `RegTestProofs.v` |

No property is currently considered inexpressible.

## Not modelled

* Code that is never compiled: `include/itrs2gcrs.hpp` (inside `#ifdef TODO`) and
  `src/lib/gravity/modified_forward_column_alf.cpp` (inside `#ifdef USE_HOLMES`; it uses undeclared names).
* Code that cannot be compiled: `examples/solid_earth_tide_displacement.cpp` calls `itrs2gcrs_quaternion` and
  `examples/atmospheric_harmonics_argument_j2000.cpp` uses `TidalConstituentsArray`; no header declares them outside `#ifdef TODO`.
* `include/gravity.hpp` (declarations only), `include/groops_tide_model.hpp` (two matrices and their accessors).
* `src/lib/aod1b/aod1b_data_stream.cpp` (empty), `src/lib/icgem/icgemio.cpp` (constructor: parses the header, throws on failure).
* Programs: `bin` (except `mergeAod1b.py`, `getAod1b.py` and the readers and the matching in `plot_eopdiffs_wrt_costg.py`), `costg-benchmark` (except `costg_utils`, the loops of the check programs and the reader in `cmdplt.py`), `examples` (except `eop_interpolation.cpp`, `pole_tide_displacement.cpp` and the reader in `plot_eop_example.py`), `test` (except `kahan.cpp`, `eop_regularize.cpp`, the matrices of `earth_quaternion.cpp`, `stokes-eigen5c.py`, `stokes1608-eigen-6s4v2.py` and `stokes32-eigen-grgs-rl04-mean-field.py`), `fortran_impl` (except `UTLIBR_D0.F` and `PMSDNUT2_D0.F`), the Python scripts other than `run_test_suite.py`, `tables52ab.py`, `c2cpp_header.py` and the reader in `apytest.py`.
* External libraries (datetime, geodesy, Eigen, CSPICE, the C++ library): their documented behaviour enters as definitions or
  parameters, see the conventions above.
* Rounding, except in C51, C70 to C78, C81 to C83, C87, C99 and where a claim says so; `printf`/`fprintf` output; the text of exceptions.
* Concurrency.
