# Formal model of attpc_engine — design

Source: `/repo/src/attpc_engine` (version 0.9.0). Everything below is Coq 8.16.1 in `rocq/theories`
(logical name `Verif`). No code of the project is run; the model is a reading of the source, and every
definition cites the file and lines it models.

## Levels of the model

* **Discrete level** (`Z`, lists, strings, association lists): pairing keys, point dictionary, index
  selection, writer state machine, HDF5 layout, pipeline validation, resampling loop, config loading.
  Python exceptions are values (`res A := Ok a | Err e`). Native undefined behaviour of `@njit` code
  (conversion of NaN/out-of-range floats to int64, unchecked array access) is the error value `UB`.
  int64 arithmetic of `@njit` code wraps explicitly (`wrap64`).
* **binary64 level** (Flocq `BinarySingleNaN`, rounding to nearest even): `pairing.py`,
  `transporter.py`, the smearing and windowing in `simulator.py`, `convert_to_spyral`,
  `apply_response`, the probability sum of `PolarArbitrary`. `exp` is a parameter (libm is not modelled).
* **exact-arithmetic level** (Coq `R`): kinematics (`reaction.py`), the equation of motion, electron
  creation, angles and excitations, response shape, z conversion. NaN is an explicit outcome where the
  code can produce it. Rounding is *not* modelled at this level: each such property says
  "(exact arithmetic)".
* **binary64 versions of the exact level**, with error bounds between the two: two-body kinematics and decay
  chains (`KinF64.v`, C65, C67, C77), electron creation (`ElectronsF64.v`, C75, C76), equation of motion
  (`MotionF64.v`, C78), sampling (`SamplingF64.v`, C80), electronics response (`Response.v`, C82, C83), the vector
  library (`VectorF64.v`, C86), whole events (C85, C86), the diffusion mesh (C87, C88, C90), the initial state of a
  track (`StartF64.v`, C91) and `KinematicsPipeline.run` with its buffer and generator (`RunF64.v`, C92). C93 and C95
  compose them from a script's first draw to the integrals stored; C94, C96 and C97 count over the generator's draws. `sqrt` and
  the four operations are correctly rounded; `exp`, `sin`, `cos`, `arccos` are parameters whose accuracy is a
  hypothesis of the theorem, and an example shows that the correctly rounded functions meet it.

`transporter.py`, `convert_to_spyral` and `apply_response` are written once over a record of numeric
operations (`Num`) and instantiated with binary64 (`F64`) and with `R`.

## What is an oracle (quantified over, never assumed as an axiom)

`numpy.random` draws; `scipy.integrate.solve_ivp` (any track); `nuclear_map` (any partial table; where
needed, the hypothesis that it returns the nucleus asked for is in the theorem statement); gas target
energy loss; libm `exp`; `np.argsort` tie order (any sorting permutation); float parsing of CSV fields;
the file system below `open`/`h5py.File`.

## Not modelled

Process kills inside HDF5 (only Python-level exceptions are crash points), tqdm/printing, argparse, parquet
encoding, numba compilation itself, performance, floating-point rounding of the exact-arithmetic level.

## Coverage

Every function of `src/attpc_engine`, and where it is modelled.

| source | model | simplifications |
|--------|-------|-----------------|
| `detector/pairing.py` pair, unpair | `Pairing.v` (int64 wrap-around, binary64) | none |
| `detector/transporter.py`, all | `Transporter.v` over `Num`, used with binary64 and exact reals | `exp` is a parameter; out-of-range `int()` and unchecked indexing are the error `UB`; typed dict = insertion-ordered association list |
| `detector/solver.py` equation_of_motion, stop/z/rho conditions, generate_trajectory, generate_electrons | `Solver.v`, exact reals | no rounding; `solve_ivp` is a parameter (`ideal_solver`: rows of one exact solution up to the first terminal event); gas = a function dE/dx and a density |
| `detector/solver.py` generate_electrons | `ElectronsF64.v`, binary64 | sums of three squares from left to right; `gv**2.0` is `gv*gv`; `rng.normal(loc, scale)` is `loc + scale*g`; no fused multiply-add. In `Simulator.v` the generator is a parameter that returns an array. In the binary64 theorems it is `electrons64` of `P_Calor.v`, where one failed conversion to integers leaves an empty array, so that `simulate` raises (IndexError in the model, ValueError or undefined behaviour of the cast in the code); C75_rest and C93_rest say when, C75_counts and C93_script give bounds within which it does not happen |
| `detector/solver.py` equation_of_motion, stop_condition, z and rho conditions | `MotionF64.v`, binary64 | `x**2.0` is a parameter accurate to one unit in the last place; `get_dedx` a bounded function; norm of two entries adds the squares; OverflowError of Python's float power left out (excluded by the bounds) |
| `kinematics/pipeline.py` KinematicsPipeline.run | `RunF64.v`, binary64 | the generator is a state with three kinds of draw as parameters; the warning text of the limit is left out |
| `detector/solver.py` generate_trajectory, initial state | `StartF64.v`, binary64 | `solve_ivp` is a parameter |
| `detector/solver.py` generate_point_cloud | `Simulator.v`, binary64 | the two functions above are parameters here; `mpgd_gain` multiplication wraps |
| `detector/simulator.py` dict_to_points, simulate | `Simulator.v`, binary64 | the generator is a parameter |
| `detector/simulator.py` run_simulation | `KinFile.v`, `SpecRun.v` | tqdm and prints left out |
| `detector/parameters.py`, all | `Parameters.v`; Config as an object that refers to its parameters: `ConfigObj.v`; whole scripts with writers: `Session.v` | `np.load`, text parsing are parameters; dataclasses are records without type checks |
| `detector/response.py`, all | `Response.v` | `get_response` over exact reals and (bounded) binary64 |
| `detector/writer.py`, all but get_directory_name | `Writer.v` | a disk is a map from paths to HDF5 trees; `h5py` errors: existing dataset, missing group |
| `detector/constants.py` | parameters, `NUM_TB` | the physical constants are arbitrary positive reals; where needed MEV_2_JOULE = MEV_2_KG C^2 is a hypothesis |
| `detector/beam_pads.py`, `detector/data/*` | `BeamPads.v`, `PadGridData.v`, `PadCentersData.v`, `PadGeometry.v` | data copied |
| `kinematics/reaction.py` Reaction, Decay | `Reaction.v`, exact reals, NaN explicit; `KinF64.v`, `KinChain.v`, binary64 with the vector library's operations as parameters; `VectorF64.v` a choice of them | `vector` library operations written out over the reals (`Reaction.v`) and in binary64 (`VectorF64.v`), as the author knows them: the source of the library is not in /repo; `__str__`: `Show.v` |
| `kinematics/angle.py`, `kinematics/excitation.py`, `KinematicsPipeline.sample` | `Sampling.v`, exact; `SamplingF64.v`, binary64 | generator draws are parameters; numpy `choice` by cumulative sums |
| `kinematics/pipeline.py` KinematicsPipeline (other methods) | `Pipeline.v`, `Show.v` (`__str__`) | none |
| `kinematics/pipeline.py` run_kinematics_pipeline | `KinFile.v` | tqdm left out |
| `kinematics/convert_kinematics.py` convert_kinematics_hdf5_to_polars | `SpecKinFile.v`/`KinFile.v` | parquet encoding left out; `main` left out |
| `typed_dict.py`, protocols, `__init__.py` | — | type annotations only |

## Per-property plan

| id | model | method |
|----|-------|--------|
| C01–C03 | `pair` on int64, `unpair` on binary64 | Flocq: sqrt of integers below 2^52 rounds inside [k, k+1); witness above by `vm_compute` |
| C04–C06 | `position_to_index` on binary64, packaged edges, packaged grid data | Flocq floor/mult/div; finite sweep over the 559 integer millimetres lifted to all floats |
| C07–C10, C15 | `transport_track` as fold over deposits into an insertion-ordered dictionary | invariant: dictionary = sum of deposits; labels = last deposit; permutation invariance |
| C11, C14 | `R` instance of the same functions | closed form of the mesh sum; bounds on exp |
| C12, C13 | binary64 instance | witness by `vm_compute`; safety by Flocq range arguments |
| C16–C19 | `simulate` over arbitrary ionisation oracle and draws | composition of the above, rounding lemma for `tb + u` |
| C20, C21 | `default_indices`, `run_simulation` loop | induction on chain length / events |
| C22–C24, C27, C28 | `SpyralWriter` state machine over a disk | invariant over all operation lists, refinement to list chunking |
| C25 | `write` with arbitrary argsort satisfying its contract | permutation + sortedness |
| C26 | `apply_response` on binary64 | monotonicity of rounding |
| C29–C31 | `R` formulas | real algebra |
| C32, C33 | `Config` loaders over a file-system map | induction on rows, witness |
| C34–C37 | `equation_of_motion`, bounds, `generate_electrons` on `R` | real algebra, Coquelicot derivatives for exact solutions |
| C38–C41 | `Reaction`/`Decay` on `R` with explicit NaN | Lorentz boost preserves the Minkowski form; witnesses with rational masses |
| C42–C48 | `KinematicsPipeline` | induction on steps; loop over arbitrary sample streams |
| C49–C51 | `run_kinematics_pipeline`, readers, on an HDF5 tree with string names | invariant of the chunk loop, injectivity of decimal names |
| C52–C55 | sampling functions on `R` | real analysis (acos monotone), numpy `choice` by cumulative sums |
| C56 | `generate_trajectory` over an exact solution | Coquelicot derivatives of an explicit slow track |
| C57 | composition of `sample`/`run`/`run_kinematics_pipeline`/`read_event` | induction on the events over C44, C47, C49, C50 |
| C58 | composition of `make_config`/`simulate`/`run_simulation`/`SpyralWriter` | binary64 bound on drift times; C16, C21, C23, C27 |
| C59 | `equation_of_motion`, `generate_trajectory` with an ideal solver | first integrals (zero derivative); explicit solution for existence |
| C60 | the same, dE/dx an arbitrary bounded function | monotone quantities along a solution (mean value theorem) |
| C61 | `equation_of_motion`, stopping conditions | the symmetry commutes with the equations, hence maps ideal tracks to ideal tracks |
| C62 | `sigma_of`, `tb_of_z`, `drift_velocity` over exact reals | algebra; witness for the offset |
| C63 | `generate_trajectory` with an ideal event-detecting solver | a solution that moves out of the window is cut at time 0; energy never increases; explicit straight-line witness beyond the micromegas |
| C64 | `SpyralWriter` with exceptions caught by the caller | invariant over all lists of attempts; witness for min_event |
| C65 | `KinF64.v`: lines 159-164 and 287-292 of reaction.py operation by operation in binary64; `x**2.0` is any monotone function within one ulp; parent energy an argument with given relative error | forward error analysis, (M-m1-m2)(M-m1+m2)/2M bounds the kinetic energy from below; computed witness three ulps above threshold |
| C66 | composition of `make_config`, `simulate`, `process` in binary64 | point of the cloud -> cell -> last deposit -> ledger -> track row; error bounds for drift time and z conversion |
| C67 | `KinChain.v`: reaction.py calculate and the event loop in binary64; sin, cos, power, boost, rest energy, mass of the vector library are parameters | sums never underflow, so each subtraction has a relative error; induction on the chain; computed witness |
| C68 | `Reaction.v`, `Pipeline.v` | turning commutes with boosts; induction on the verdict of a chain |
| C69 | `Reaction.v` | closed form of the boost along z; cos decreasing; (E k + p e cos)^2 >= 0 |
| C70 | composition of `make_config`, `simulate`, `process` in binary64 | ledger cells, C17 and the writer's map and filter, as one-to-one relations up to permutation |
| C71 | same; two runs that differ in threshold or in gain | filters compose; induction on points and pixels that truncated products grow with the gain; overflow by a computed witness |
| C72 | `generate`, `run_kinematics_pipeline`, `run_simulation`, writer | C57 gives the file's contents, induction on events gives the simulated clouds, C53 and C66 lemmas give the files |
| C73 | `sample_verdict`, `nuclei_to_sim`, start of `generate_trajectory` (momentum over ground-state mass) | rows are on shell and conserve four-momentum (C47); difference of two square roots with the same momentum; witness 1 + 1 -> 1 + 1* |
| C74 | `generate`, `sample`, `run_kinematics_pipeline`, `read_event` | C57 gives an accepted sample per event, C52 its vertex and energy, C47 and C40 the threshold; witness with a stopped beam |
| C75 | `generate_electrons` in binary64 (`ElectronsF64.v`), beside the exact model in `Solver.v` | calculus of relative errors counted in roundings (products, quotients, square roots), absolute bounds after the cancellations |
| C76 | `simulate` (`Simulator.v`) with `counts64` of `ElectronsF64.v` as its electron generator | C17's ledger of cells summed over keys, C75's bounds per row, telescoping of the energy differences |
| C77 | tests of `is_excitation_allowed` in binary64 (`KinF64.v`, `KinChain.v`) | exactness of the sign of a difference; relative errors counted in roundings through squares, difference and root |
| C78 | `equation_of_motion` and the terminal conditions in binary64 (`MotionF64.v`), beside the exact model in `Solver.v` | relative errors for speed and Lorentz factor, absolute errors in units of the bounds for the signed terms of the force, exactness of signs of differences |
| C79 | Config and parameter objects as references (`ConfigObj.v`), scripts of assignments, constructions and calculations; exact arithmetic | induction on the script: what a Config keeps; algebra of the two conversions; witnesses with one and two Configs |
| C80 | KinematicsPipeline.sample and the distributions, operation by operation (`SamplingF64.v`, binary64); primitive draws, cos, sin, arccos and the energy loss are parameters | monotonicity of rounding; a product with a draw rounds below the other factor; cumulative sums grow and end at 1; total correctness by composition |
| C81 | the loop of `simulate` over nuclei (`Simulator.v`), each nucleus also run from an empty dictionary | dictionaries as a module over deposits: depositing into a merged dictionary is depositing into its second part; induction over the nuclei |
| C82 | the response and the amplitude and integral of a charge in binary64 (Response.v), with exp, sin and the cube accurate to one unit in the last place | error bound for every sample by relative errors and Lipschitz bounds of exp and sin; carried to amplitude and to the rounded sum of 512 samples; proportionality below saturation; correctly rounded functions meet the requirements |
| C83 | a simulated cloud taken through the writer: response and conversion in binary64 (Response.v, Writer.v) after the simulation (Simulator.v) | the rows are paired with the points they measure (a permutation split into kept and dropped); C82 gives each row, the rounded sums add up; C76 gives the charge of the cloud, so the stored integrals are tied to the energy lost |
| C84 | masses of the rows computed in binary64 (`KinChain.v`), given bounds on the error of the vector library at each parent | forward error analysis; invariance of the Minkowski product bounds the error by the energy of the parent, not by cancellation; comparison with the exact model of C41; a correctly rounded library meets the bounds |
| C85 | event of reaction and decays in binary64 (`KinChain.v`), vector library accurate on a stated domain | induction on the chain: each residual row is a valid parent because its mass is compared with the nominal one, so errors do not accumulate; energies stay positive and do not grow |
| C86 | the vector library's boost, rest energy and mass in binary64 (`VectorF64.v`), Cartesian formulas | forward error analysis in units of u g^2, g a bound on energy/mass; the rest energy by a common computed gamma, so that its error is not multiplied by g^2 twice; discharges the library hypothesis of C85 |
| C87 | Mesh points, pixel weights, rows and tracks in binary64 for a resolvable width | forward error analysis (near/mulM/divM/addM), sum of the hundred shares against the exact bound |
| C88 | C76 with diffusion: Gaussian mesh of 100 pixels per row in binary64 | C87 per row, ledgers summed per track and event, the rest as C76 |
| C89 | Whole calls of simulate and whole runs return normally | C13 per track, bounds on drift times and electron numbers, induction over nuclei and events; C58 for the writer |
| C90 | diffusion, simulation, response and writer together (Transporter.v, Simulator.v, Response.v, Writer.v) | C88 in place of C76 in the proof of C83: per-row bounds of C82 and the selection of C83 applied to a diffused cloud |
| C91 | an event in binary64 (KinChain.v, VectorF64.v), the initial state of each track (StartF64.v), and its simulation with diffusion (Simulator.v); solve_ivp is any solver whose first row is the state it was given and whose rows never gain energy | rounding of the division and the mass shell of C86 give the kinetic energy of the first row; C67 adds up the energies of the final nuclei; C76 telescopes each track; C88 gives the charge |
| C92 | KinematicsPipeline.run and run_kinematics_pipeline in binary64 (`RunF64.v`, `SamplingF64.v`, `KinChain.v`, `KinFile.v`): resampling loop, the reused result buffer and its positions, the generator threaded through all draws | outcome relation of the loop by induction on its fuel; the rows of the file by C49/C50; interval conditions on the draws (C80) imply the conditions of C86 for every sample, so no draw is rejected and no run fails |
| C93 | a script that generates a kinematics file and simulates it, all in binary64: `RunF64.v` (C92), `StartF64.v`, and the detector of C89 (`P_Script.v`); the solver is any function that stays in the detector and does not gain energy | composition: sound events (C92) bound every row, so the first row of every track moves within the bounds of C75; then C89. A nucleus at rest makes the conversion of electrons fail (C75), so the event cannot be simulated; its absence is a hypothesis, discharged in the example from the soundness of the events |
| C94 | `SamplingF64.v` with a generator that reads whole numbers k of [0, 2^53), each draw being k·2^-53 (`P_Frequency.v`); probability = number of first draws with the outcome, over 2^53 | counting: the outcome is decided by where k lies among two thresholds; rounding moves a threshold by a bounded number of draws; cumulative sums by induction with a linear error bound; for the polar angle, cos is 1-Lipschitz and decreasing |
| C95 | C91 and C90 on the same event (`P_Balance.v`), with the electronics of C82 | composition: the energy lost by the tracks is the available energy of the event up to the tolerance (lemma `energy_near`), then C90 |
| C96 | a generator whose uniform draws are an unending list of whole numbers of [0, 2^53), normal and Breit-Wigner numbers from another source | `P_Isotropy.v`: which draw makes which number of a sample (`C96_draws`), then counting over all values of two draws with every other draw fixed; products of the counts of C94 |
| C97 | The smearing of `simulate` in binary64, with the uniform draws an unending list of multiples of 2^-53 (P_Smear.v) | tracks and ledger fixed, the rest of `simulate` reduced to a closed form of the draws; counting of draws as in C94 |
| C98 | Scripts that make parameter objects, Configs and writers, assign to attributes and write events in any order (Session.v) | induction over scripts: a writer follows the events handed to it; two runs related up to the dropped assignments; C64 for the files, C82 for the amplitudes; the last assignment to each object decides its settings |
| C99 | The packaged pad map, the pad centres of padxy.csv and the beam pad list together (data embedded, PadGeometry.v), the look-up in binary64, and the rows stored for an event with that map | the runs of the map are checked one by one against the box of the pad they name and against two circles, by computation; rounding of 1000 x bounded by 10^-9 mm; rows through C66, the mesh through C87; every pad reached, by a sweep over the runs (P_Reach.v) |
| C100 | the generator hands out one number per letter of a finite alphabet (repeated letters: other weights), sequences of letters are counted; the whole file run of `RunF64.v`/`KinFile.v` with its limit and re-used buffer, events as read back | a sample reads a fixed number of letters (`reads_sample`), so the attempts of an event are consecutive blocks; the count of files obeys a recursion over events and attempts; the conditional distribution of the events of a file is the product of the one-sample conditional distributions (`P_Rejection.v`) |
| C101 | the strings of Reaction, Decay and KinematicsPipeline (`Show.v`); str() of a nucleus is its isotopic symbol | cutting a string at the first separator; induction over the decays (`P_Show.v`) |
| C102 | ElectronsF64 and Simulator; draws as symmetric finite lists, all words of draws equally likely | P_Bias: each row paired with its negated draw, summed over rows and words; the cloud by the accounting of P_Calor |
| C103 | SamplingF64 (sample with its draws) | P_Spot: whole-turn sums of sines and cosines over the 2^53 directions, rounding of each vertex bounded |
| C104 | Reaction (exact), KinChain (binary64), Sampling, SamplingF64 (sample with its draws) | P_Box: laboratory energy linear in the cosine of the polar angle, so shares of draws (C94) become shares of energies; averages over all 2^106 pairs of draws by whole-turn sums and the boost written as a linear map |
| C105 | ElectronsF64; draws as symmetric finite lists, all words of draws equally likely | P_Resolution: electrons = constant + Fano fluctuation + centred truncation error; mean squares of independent rows add up, Cauchy-Schwarz and Minkowski for the rest; the cloud by C102_cloud with the draws of the generator in order; Chebyshev's inequality for single events; C76_energy to compare two cuts of the same track |
| C106 | Simulator, Writer; the draw of a point as one of 2^53 numbers, all other draws fixed | P_Centre: sums of k and k^2 over all draws, rounding by C66 and C97; the cloud by C97_cloud |

(The final state of each claim is in `MANIFEST.json`; this file is updated as the model grows.)

## Trusted base

1. The kernel of Coq 8.16.1 (and, for the gate, `coqchk`). A few finite facts are computed with
   `vm_compute`; no other reduction engine and no plugin beyond the standard ones is used.
2. The standard library and Flocq/Coquelicot as installed; they add no axioms beyond the ones listed below.
3. The axioms `Print Assumptions` lists. All come from the standard library:
   `ClassicalDedekindReals.sig_not_dec` and `sig_forall_dec` and
   `FunctionalExtensionality.functional_extensionality_dep` are how Coq's real numbers are built;
   `Classical_Prop.classic` enters through Flocq and real analysis;
   The examples that exhibit an ideal ODE solver (`P_Braking.ideal_solver_exists`, not a claim) also use the
   choice axioms behind `ClassicalChoice.choice`. The project's own files declare no axiom.
4. The reading of the Python source: each definition cites the lines it models, and the
   coverage table says what is left out. A theorem says nothing about the installed program where the reading is wrong.

### Assumptions of each theorem (generated by `tools/assumptions.py`)

<!-- assumptions begin -->
* **no axioms** (closed under the global context) — 41 theorems:
  `C02_pair_injective`, `C02_pair_range`, `C02_negative_only`, `C07_bookkeeping`, `C07_success`, `C07_total_charge`, `C08_no_beam_pads`, `C08_beam_pad_table`, `C09_last_depositor`, `C14_row_major`, `C15_order_independence`, `C20_default_nuclei`, `C21_each_nonempty_event_written_once`, `C21_increasing_events`, `C21_failed_run_is_a_prefix`, `C22_run_file_names`, `C30_zero_gain`, `C38_reaction`, `C38_reaction_refused`, `C38_decay`, `C38_decay_refused`, `C42_accepted`, `C42_refused`, `C43_row_order`, `C43_numbers`, `C43_conserved`, `C49_finished`, `C49_location`, `C49_ranges`, `C49_paths`, `C50_read_back`, `C50_simulation`, `C50_conversion`, `C50_frame_rows`, `C51_interrupted`, `C51_simulation_refuses`, `C51_conversion_refuses`, `C97_lost`, `C101_chain`, `C101_numbers`, `C101_words`
* `ClassicalDedekindReals.sig_forall_dec` — 1 theorems:
  `C52_no_material`
* `ClassicalDedekindReals.sig_forall_dec`, `FunctionalExtensionality.functional_extensionality_dep` — 6 theorems:
  `C48_counts_decayed_nuclei`, `C48_no_decays`, `C55_uniform`, `C55_gaussian_zero_width`, `C55_negative_excitation`, `C55_breit_wigner`
* `ClassicalDedekindReals.sig_forall_dec`, `ClassicalDedekindReals.sig_not_dec`, `FunctionalExtensionality.functional_extensionality_dep` — 76 theorems:
  `C14_mesh`, `C14_extent`, `C29_round_trip`, `C29_range`, `C29_truncation_error`, `C31_velocity`, `C34_lorentz_force`, `C34_magnetic_field_does_no_work`, `C34_power`, `C35_at_rest`, `C35_trajectory_at_rest`, `C36_counts`, `C36_energy_accounting`, `C36_zero_w`, `C36_electron_budget`, `C37_times`, `C37_track_volume`, `C39_reaction`, `C40_allowed_is_exact`, `C40_allowed_is_calculated`, `C40_window`, `C40_below_threshold_nan`, `C40_allowed_but_refused_refuted`, `C41_decay`, `C41_refused`, `C41_not_massive`, `C44_first_allowed`, `C44_limit`, `C44_outcomes`, `C45_no_stale_data`, `C46_alias`, `C46_overwritten_refuted`, `C47_conservation`, `C47_no_nan`, `C47_on_shell`, `C47_accepted_iff`, `C48_chain_rejected_refuted`, `C48_endothermic_refuted`, `C52_vertex`, `C54_folded`, `C54_accepted_iff`, `C55_gaussian_fwhm`, `C56_track_cut_refuted`, `C56_time_limit`, `C56_sampling`, `C57_events`, `C57_succeeds`, `C57_conservation`, `C59_helix_exists`, `C61_rotation`, `C61_mirror`, `C61_translation`, `C61_track_rotation`, `C61_electric_force`, `C62_width`, `C62_monotone`, `C62_no_drift_no_spread_refuted`, `C63_backwards_from_the_window`, `C63_outside_refuted`, `C68_reaction`, `C68_decay`, `C68_events`, `C68_energies`, `C69_laboratory`, `C69_energy_falls`, `C73_start`, `C73_event`, `C73_excess_refuted`, `C76_energy`, `C79_stored`, `C79_right_iff`, `C79_untouched`, `C79_stale_refuted`, `C79_shared_refuted`, `C83_total`, `C99_beam_pads`
* `ClassicalDedekindReals.sig_forall_dec`, `ClassicalDedekindReals.sig_not_dec`, `Classical_Prop.classic`, `FunctionalExtensionality.functional_extensionality_dep` — 213 theorems:
  `C01_round_trip`, `C01_round_trip_int`, `C02_unpair_inverse`, `C02_negative`, `C03_limit_sharp`, `C03_refuted_for_all_int64`, `C04_lookup_in_bounds`, `C05_acceptance`, `C05_last_mm_rejected`, `C06_resolution`, `C06_centres_refuted`, `C08_no_beam_pads_decoded`, `C08_negative_times`, `C09_zero_takeover`, `C10_single_pad`, `C10_total_charge`, `C11_row_no_creation`, `C11_track_no_creation`, `C11_bounded_loss`, `C12_refuted_in_binary64`, `C13_memory_safety`, `C13_deposits_nonnegative`, `C13_negative_time_refuted`, `C16_cloud_shape`, `C16_grid_required`, `C16_far_times_refuted`, `C17_one_point_per_cell`, `C17_exact_charge`, `C18_labels_are_requested_charged_nuclei`, `C18_neutral_nuclei_have_no_effect`, `C18_all_neutral_is_empty`, `C19_smearing`, `C19_negative_times_dropped`, `C19_bucket_not_preserved_refuted`, `C22_documented_label_name_refuted`, `C22_output_is_split`, `C22_successful_writes_are_stored`, `C22_repeated_event_raises`, `C23_event_ranges`, `C24_limit_zero`, `C24_negative_limit_never_splits`, `C25_stored_rows`, `C25_centres_required`, `C25_unknown_pad`, `C25_below_threshold`, `C25_threshold_above_saturation`, `C26_adc_range`, `C26_monotone`, `C26_amplitude_is_peak`, `C27_only_own_run_files`, `C27_finished_files_are_final`, `C28_finished_after_close`, `C30_response`, `C30_inverse_gain`, `C30_response_binary64`, `C31_zero_division`, `C31_constructor_zero_division`, `C31_velocity_binary64`, `C31_settings`, `C32_default_sizes`, `C32_custom_sizes_are_pad_positions`, `C32_custom_sizes_default_geometry`, `C32_size_file_is_never_read`, `C32_size_file_refuted`, `C33_centres`, `C33_too_many_rows`, `C33_grid`, `C34_energy_never_increases`, `C34_track_energies`, `C35_target_of_a_file`, `C52_sample_is_complete`, `C52_own_distributions`, `C53_in_range`, `C53_uniform_in_cos`, `C53_attained`, `C53_reversed_limits_fail`, `C54_sample`, `C54_deficient_fails_late`, `C54_exact_sum_refused`, `C55_light_residual`, `C58_storable`, `C58_run`, `C59_helix`, `C59_brho`, `C60_range`, `C60_loss_rate`, `C60_stopping_time`, `C60_track_range`, `C60_complete_track`, `C63_slow_start`, `C64_failed_writes_lose_nothing`, `C64_reasons`, `C64_ranges`, `C64_minimum_is_stored_refuted`, `C65_break_up_is_real`, `C65_allowed_is_real_refuted`, `C66_rows_lie_on_the_track`, `C67_conservation_binary64`, `C67_exact_refuted`, `C69_cone`, `C70_exactly_what_passes`, `C71_threshold`, `C71_gain`, `C71_gain_stored`, `C71_overflow_refuted`, `C72_generate_and_detect`, `C74_depth`, `C74_stopped_beam_refuted`, `C75_energy`, `C75_means`, `C75_counts`, `C75_no_loss`, `C75_rest`, `C76_charge`, `C77_decay`, `C77_reaction`, `C77_decay_calculated`, `C78_stop`, `C78_motion`, `C78_speed`, `C78_ends`, `C78_rest`, `C78_moving_is_enough_refuted`, `C80_gaussian`, `C80_breit_wigner`, `C80_uniform`, `C80_azimuth`, `C80_polar`, `C80_excitation`, `C80_vertex`, `C80_sample`, `C80_half_open_refuted`, `C81_superposition`, `C81_simulated_iff`, `C81_charge`, `C81_cloud`, `C82_samples`, `C82_charge`, `C82_proportional`, `C83_rows`, `C83_energy`, `C84_decay`, `C84_reaction`, `C84_event`, `C84_exact`, `C85_event`, `C86_library`, `C86_event`, `C87_pixel`, `C87_row_no_creation`, `C87_track_no_creation`, `C87_bounded_loss`, `C87_width`, `C88_charge`, `C89_simulate`, `C89_missing_data`, `C89_negative_time_refuted`, `C89_countable`, `C89_event`, `C89_run`, `C89_short_detector_refuted`, `C90_energy`, `C91_start`, `C91_charge`, `C92_file`, `C92_failure`, `C92_sample`, `C92_certain`, `C93_script`, `C93_rest`, `C94_uniform`, `C94_polar`, `C94_table`, `C95_stored`, `C96_draws`, `C96_isotropic`, `C96_vertex`, `C96_depth`, `C96_excitation`, `C96_table`, `C97_next_bucket`, `C97_time`, `C97_cloud`, `C98_files`, `C98_late_gain`, `C98_late_paths`, `C98_last_assignment`, `C98_config`, `C98_factor`, `C99_pad_at_position`, `C99_hole`, `C99_beam_extent`, `C99_stored_near_track`, `C99_beam_region_silent`, `C99_every_pad`, `C100_shape`, `C100_conditional`, `C100_limit`, `C102_average`, `C102_silent`, `C102_cloud`, `C103_spot`, `C103_radius`, `C104_box`, `C104_box64`, `C104_mean`, `C104_mean_reaction`, `C105_resolution`, `C105_steps`, `C105_cloud`, `C106_middle`, `C106_track`, `C106_cloud`
<!-- assumptions end -->
