#!/usr/bin/env python3
"""Writes /verif/properties.jsonl (one JSON object per line)."""
import json, os
P = []
def p(title, statement, quantifier, why, anchors):
    P.append(dict(id=f"C{len(P)+1:02d}", title=title, statement=statement, quantifier=quantifier,
                  why_tests_cant=why, anchors=anchors))
D="src/attpc_engine/detector/"; K="src/attpc_engine/kinematics/"
p("pair/unpair round trip in binary64",
  "For every time bucket and pad that are non-negative and below 2^26, unpair(pair(tb, pad)) returns exactly (tb, pad), although unpair computes floor(sqrt(id)) in IEEE binary64.",
  "all integers tb, pad with 0 <= tb, pad < 2^26 (2^52 pairs)",
  "2^52 inputs; the danger is a single rounding of sqrt at a perfect-square boundary, which sampled tests do not hit.",
  [D+"pairing.py:pair", D+"pairing.py:unpair"])
p("pair is injective and unpair is its inverse",
  "Distinct non-negative (tb, pad) below 2^26 get distinct ids, every id below 2^52 is the id of exactly one such pair, and every input with a negative component maps to -1, which unpair maps to (-1, -1).",
  "all pairs of integers below 2^26 (negative ones included), all ids 0 <= id < 2^52",
  "Injectivity is a statement about all pairs of inputs.",
  [D+"pairing.py:pair", D+"pairing.py:unpair"])
p("the exactness limit of unpair",
  "The round trip is not guaranteed for all int64 ids: from id 2^52 upwards there are non-negative pairs whose id still fits int64 for which unpair returns a different pair; the limit 2^26 on the components is sharp.",
  "existential witness at the first components above the proved limit",
  "A test suite that never leaves realistic pad numbers cannot show where the guarantee stops.",
  [D+"pairing.py:unpair"])
p("position lookup is always inside the packaged pad grid",
  "For every position that is not NaN, position_to_index with the packaged grid edges either reports (-1, -1) or returns a row and a column inside the 5600x5600 packaged grid; no position causes an out-of-bounds read.",
  "all binary64 x, y other than NaN, infinities included",
  "2^128 positions; the unchecked native index is memory-unsafe for a single bad one.",
  [D+"transporter.py:position_to_index", D+"parameters.py:Config.load_pad_grid", D+"data/pad_grid.npz"])
p("exact acceptance region of the pad lookup",
  "With the packaged edges a position is looked up exactly when -280 <= floor(1000 x) <= 278 and the same for y; positions in the last millimetre [279, 280) mm, which the packaged grid covers and the docstring promises, are rejected.",
  "all binary64 positions other than NaN",
  "Boundary behaviour over the whole plane, including rounding of 1000*x.",
  [D+"transporter.py:position_to_index", D+"data/pad_grid.npz"])
p("pad lookup resolution",
  "The index returned depends only on the whole millimetre of the coordinate: with the packaged edges it is 10*(floor(1000 x)+280), the first 0.1 mm bin of that millimetre, not the 0.1 mm bin that contains the position. Consequently an electron landing on the exact listed centre of a pad can be attributed to another pad or to none (pads 172 and 340 of the packaged geometry).",
  "all binary64 positions; witnesses from the packaged geometry",
  "Needs the relation between every position and the bin returned, not a sampled position.",
  [D+"transporter.py:position_to_index", D+"parameters.py:Config.load_pad_grid", D+"data/pad_grid.npz", D+"data/padxy.csv"])
p("charge bookkeeping of a track",
  "After transport_track succeeds, the electrons stored for every (pad, time bucket) equal the electrons stored before plus the sum of all deposits of the track that fell on that pad and time bucket (in int64 arithmetic); combinations that received no deposit are unchanged.",
  "all grids, edges, diffusion parameters, tracks of any length, electron arrays and initial point dictionaries",
  "Needs an invariant over arbitrary sequences of merges into the dictionary.",
  [D+"transporter.py:transport_track", D+"transporter.py:point_transport", D+"transporter.py:transverse_transport"])
p("beam pads and off-plane electrons never produce points",
  "A point dictionary without beam pads or negative pads (as decoded by unpair) holds none after transporting any track with time buckets in [0, 2^26); charge at negative times is pooled under the key -1, which decodes to (-1, -1) and belongs to no pad. The 122 packaged beam pads are distinct, sorted and valid pad numbers.",
  "all grids, tracks and parameters",
  "One deposit in any pixel of any track point would break it.",
  [D+"transporter.py:point_transport", D+"transporter.py:transverse_transport", D+"beam_pads.py:BEAM_PADS"])
p("point labels are the last depositor",
  "The label of every (pad, time bucket) after transporting a sequence of nuclei is the label of the last nucleus that deposited there, whatever the amounts: in particular a deposit of 0 electrons takes over the label of all charge left there by an earlier nucleus, so a label does not imply that its nucleus contributed any charge.",
  "all sequences of tracks and labels; witness for the zero-electron takeover",
  "History-dependent: depends on the order of all deposits.",
  [D+"transporter.py:transverse_transport", D+"simulator.py:simulate"])
p("no diffusion means point transport",
  "When the diffusion coefficient is zero every track point deposits all its electrons on the single pad above it (or none if there is no active pad), so the total charge gained equals the sum of the electrons of the points that are above active pads.",
  "all tracks with finite times and positive fields and drift velocity",
  "Quantifies over all tracks; relies on sqrt(0) and signed zero behaviour.",
  [D+"transporter.py:transport_track", D+"transporter.py:point_transport"])
p("diffusion does not create charge (exact arithmetic)",
  "In exact arithmetic the 10x10 mesh deposits of one track point add up to at most its electrons, for every position, width and electron number; if every pixel is above an active pad at most 0.2 % of the electrons plus one per pixel are lost.",
  "all real centres, all sigma > 0, all electron numbers >= 0, all grids",
  "Continuum of inputs; depends on a numerical inequality between exponentials.",
  [D+"transporter.py:transverse_transport", D+"transporter.py:bivariate_normal_pdf", D+"transporter.py:meshgrid"])
p("diffusion can create charge in binary64",
  "In binary64 the bound fails when sigma is below the resolution of the centre coordinate: all 100 pixels collapse onto the centre and about 7 times the electrons are deposited.",
  "existential witness (binary64)",
  "The failing inputs are a thin corner that sampling does not reach.",
  [D+"transporter.py:transverse_transport"])
p("memory safety of the transport",
  "If the time of every track point is finite and >= 0, the diffusion >= 0, efield > 0, drift velocity > 0 and values stay in floating-point range, transport never performs an out-of-range native conversion or array access on the packaged grid. With a positive diffusion a negative time (NaN sigma) does: such times arise for a detector length below 1 m, because the trajectory is bounded by a fixed 1 m.",
  "all tracks and parameters; witness for the unsafe case",
  "Undefined behaviour has no reliable test oracle.",
  [D+"transporter.py:transport_track", D+"transporter.py:position_to_index", D+"solver.py:forward_z_bound_condition", D+"solver.py:generate_point_cloud"])
p("the diffusion mesh",
  "The mesh is the row-major Cartesian product of the x and y steps: 100 pixels, each pair once, all within 3 sigma of the centre, containing the four corners, and symmetric about the centre (exact arithmetic).",
  "all centres and sigma >= 0; all step arrays of any length for the product",
  "Universal over array contents and lengths.",
  [D+"transporter.py:meshgrid", D+"transporter.py:transverse_transport"])
p("charges do not depend on the order of deposits",
  "Transporting the same tracks in any order gives the same electrons for every (pad, time bucket); only labels and the order of points may differ.",
  "all permutations of all lists of tracks",
  "Factorially many orders.",
  [D+"simulator.py:simulate", D+"transporter.py:transport_track"])
p("shape of a simulated point cloud",
  "Every point returned by simulate has a pad that is an entry of the pad grid, is not a beam pad and not -1, a time bucket in [0, 512), and the point and label arrays have equal length.",
  "all inputs, trajectories, random draws and configurations for which simulate returns",
  "Universal over random draws and trajectories.",
  [D+"simulator.py:simulate", D+"simulator.py:dict_to_points"])
p("one point per pad and time bucket, carrying all its charge",
  "Within a simulated cloud no two points share pad and integer time bucket (before the sub-bucket smearing), and each point carries exactly the charge all simulated nuclei deposited there.",
  "all inputs and random draws for which simulate returns, pads and buckets below 2^26",
  "Depends on injectivity of the pad/time key over all combinations.",
  [D+"simulator.py:simulate", D+"simulator.py:dict_to_points", D+"pairing.py:pair"])
p("labels name simulated charged nuclei",
  "Every label in a simulated cloud is one of the requested indices and that nucleus has a non-zero proton number; neutral nuclei in the request have no effect on the result.",
  "all index lists, nuclei and random draws",
  "Universal over index lists and histories of deposits.",
  [D+"simulator.py:simulate"])
p("sub-bucket smearing and the 512 bucket window",
  "Smearing adds u in [0,1) in binary64: the smeared time lies in the closed interval [tb, tb+1], charge in buckets >= 512 is always dropped and charge in buckets 0..510 is always kept; but the result can round to tb+1 exactly, so the bucket is not always preserved and a point of bucket 511 can be dropped.",
  "all buckets below 2^26 and all binary64 u in [0,1); witness for the rounding case",
  "The rounding case has probability about 2^-45 per point.",
  [D+"simulator.py:simulate", D+"constants.py:NUM_TB"])
p("default nuclei are exactly the final products",
  "With indices=None and a file of a chain with k decays, the simulated nuclei are exactly the ejectile, the first product of every decay and the last residual, each once: those not consumed by a later step.",
  "all numbers of decays k >= 0",
  "Unbounded chain length.",
  [D+"simulator.py:run_simulation", K+"pipeline.py:KinematicsPipeline.get_proton_numbers"])
p("every non-empty event is written exactly once",
  "run_simulation calls the writer once for every event whose cloud is non-empty, in increasing event order, with that event's number, skips the others, and closes the writer exactly once at the end.",
  "all kinematics files, simulation results and writers",
  "Universal over event histories.",
  [D+"simulator.py:run_simulation"])
p("SpyralWriter splits the output",
  "After any sequence of writes of distinct events: every file holds at most max_events_per_file events, all files but the last hold exactly that many, run numbers are consecutive from first_run_number, concatenating the files gives exactly the written events in order, and every cloud records the run number of its own file (max_events_per_file >= 1).",
  "all write sequences of any length, all limits >= 1 and first run numbers",
  "Invariant over unbounded histories.",
  [D+"writer.py:SpyralWriter.write", D+"writer.py:SpyralWriter.create_next_file"])
p("event range metadata",
  "After close, min_event and max_event of every file enclose the event numbers it holds, ranges of different files are disjoint and increasing, max_event is a stored event whenever one was written, and min_event is the first stored event of every file except the first, whose min_event is 0 even if event 0 was never written; a run without any event claims event 0.",
  "all increasing write sequences; witnesses for the first file and the empty run",
  "Depends on the whole history of writes.",
  [D+"writer.py:SpyralWriter.set_number_of_events", D+"writer.py:SpyralWriter.write"])
p("degenerate file limits",
  "max_events_per_file = 0 leaves an empty first file and then puts all events in the second; a negative limit never splits.",
  "all write sequences",
  "Universal over histories.",
  [D+"writer.py:SpyralWriter.write"])
p("threshold and ordering of a written cloud",
  "The rows written for an event are exactly the converted points whose amplitude exceeds the ADC threshold, in non-decreasing z, and the label written at each position is the label of that row. An event all of whose points stay at or below the threshold is stored as an empty cloud and counted; since amplitudes saturate at 4095, a threshold of 4095 or more empties every cloud. A point whose pad is not in the table of centres is converted with memory outside the table; no exception is raised.",
  "all clouds, labels, thresholds and all sorting orders of ties",
  "Universal over arrays and over the unspecified order of ties.",
  [D+"writer.py:SpyralWriter.write", D+"writer.py:convert_to_spyral"])
p("ADC range",
  "For a finite non-negative response of n samples and finite non-negative electrons the amplitude lies in [0, 4095], the integral in [amplitude, n*4095], and both are non-decreasing in the number of electrons, in binary64 arithmetic including overflow of the product.",
  "all finite non-negative binary64 responses and electron numbers",
  "Universal over floating-point values; saturation and rounding interact.",
  [D+"response.py:apply_response"])
p("writing touches only its own run files",
  "A writer creates or truncates only run files with numbers from first_run_number to its current run number; every other file is unchanged, and a finished file is never modified again.",
  "all write sequences and disk contents",
  "Frame property over unbounded histories and arbitrary other files.",
  [D+"writer.py:SpyralWriter"])
p("a writer is finished after close",
  "After close (in particular after run_simulation) every further write or close raises and leaves all files unchanged.",
  "all histories",
  "Universal over histories.",
  [D+"writer.py:SpyralWriter.close", D+"writer.py:SpyralWriter.write"])
p("z to time bucket and back",
  "The drift-time conversion and the writer's z conversion are inverse: an exact time bucket gives back z, and truncation plus smearing moves the written z by at most one time bucket of drift; z in [0, length] corresponds to time buckets in [micromegas_edge, windows_edge].",
  "all lengths, edges with windows_edge > micromegas_edge, all z (exact arithmetic)",
  "Continuum of inputs.",
  [D+"solver.py:generate_point_cloud", D+"writer.py:convert_to_spyral", D+"parameters.py:Config.calculate_drift_velocity"])
p("the electronics response",
  "The response has 512 samples, is non-negative everywhere, is zero at the first sample, and at most c1*exp(-3) with c1 = 4095 e / (gain 1e-15); it is inversely proportional to the amplifier gain. In binary64 every sample is finite and non-negative.",
  "all positive gains, shaping times and clock frequencies (exact arithmetic)",
  "Continuum of parameters.",
  [D+"response.py:get_response"])
p("drift velocity",
  "Config raises ZeroDivisionError exactly when the two edges are equal; otherwise the drift velocity times the number of time buckets between the edges is the detector length, and it is positive for positive length and windows_edge > micromegas_edge.",
  "all lengths and integer edges",
  "Continuum of inputs.",
  [D+"parameters.py:Config.calculate_drift_velocity"])
p("custom pad size files",
  "A user-supplied pad size file is never read: with a non-default pad_size_path the sizes are taken from the first column of the geometry file (pad x coordinates), and with a default geometry path the constructor looks for a file called Default. The promise that pad_sizes[i] is row i of the pad size file holds only for the default path.",
  "all file systems and paths; witness",
  "Universal over file contents: the result is independent of the file the user named.",
  [D+"parameters.py:Config.load_pad_sizes"])
p("loading pad centres",
  "For a geometry file with at most 10240 data rows, centre i is row i, the remaining centres are (0, 0); more rows raise IndexError.",
  "all file contents and lengths",
  "Unbounded file contents.",
  [D+"parameters.py:Config.load_pad_centers"])
p("equation of motion",
  "For every state with non-zero momentum the right-hand side is the relativistic Lorentz force in fields along z plus a drag opposite to the motion; the speed is below c; the magnetic field does no work; without electric field and with non-negative stopping power the kinetic energy never increases, along every exact solution.",
  "all states, fields, nuclei, stopping powers (exact arithmetic) and all exact solutions",
  "Continuum of states and whole trajectories.",
  [D+"solver.py:equation_of_motion", D+"solver.py:stop_condition"])
p("a nucleus at rest cannot be simulated",
  "The equation of motion raises ZeroDivisionError for zero momentum, so simulating the target of a reaction (index 0, which is at rest in every kinematics file) always fails.",
  "all vertices, fields and nuclei with zero momentum",
  "Universal over configurations.",
  [D+"solver.py:equation_of_motion", K+"reaction.py:Reaction.calculate"])
p("electron creation",
  "The first track point creates no electrons on average, the mean number at each later point is |energy change|/W, and the energies deposited add up to at least the net energy lost, with equality for a monotone track; only points with at least one electron are transported, each multiplied by the gas gain.",
  "all tracks of any length (exact arithmetic) and all random draws",
  "Universal over tracks and draws.",
  [D+"solver.py:generate_electrons", D+"solver.py:generate_point_cloud"])
p("active volume length",
  "The trajectory stopping conditions use a fixed length of 1 m and radius of 0.292 m whatever the configuration: for length < 1 tracks continue past the micromegas into negative drift times, for length > 1 they stop before it. Only for length = 1 do trajectory and time conversion agree.",
  "all configured lengths",
  "Universal over configurations.",
  [D+"solver.py:forward_z_bound_condition", D+"solver.py:rho_bound_condition", D+"solver.py:generate_point_cloud"])
p("Reaction and Decay construction conserve charge and mass number",
  "A constructed Reaction or Decay balances Z and A between entrance and exit channel; the constructor raises ValueError exactly when the remaining Z or A would be negative.",
  "all nuclei and any nuclear data table that returns the nucleus it is asked for",
  "Universal over nuclei.",
  [K+"reaction.py:Reaction.__init__", K+"reaction.py:Decay.__init__"])
p("Reaction.calculate conserves four-momentum and puts products on their mass shell",
  "For every energetically allowed reaction the four vectors satisfy target + projectile = ejectile + residual, the ejectile has its rest mass, the residual has rest mass plus excitation, and the ejectile direction in the centre-of-mass frame is the requested one.",
  "all masses > 0, energies, angles and excitations allowed by is_excitation_allowed (exact arithmetic)",
  "Continuum of inputs.",
  [K+"reaction.py:Reaction.calculate", K+"reaction.py:Reaction.is_excitation_allowed"])
p("allowed reactions can still be refused",
  "is_excitation_allowed is exactly the relativistic threshold. When the ground-state reaction is endothermic, or the excited reaction is still exothermic, calculate succeeds for every beam energy is_excitation_allowed accepts. For the other reactions (exothermic, to a state above the Q value, in a stated range of masses) there are energies just above the threshold which is_excitation_allowed accepts and for which calculate raises ValueError, because it uses a different threshold formula; and below the threshold calculate can go through and return NaN.",
  "all masses, energies and excitations; witnesses for both disagreements",
  "The window is a fraction of a keV wide.",
  [K+"reaction.py:Reaction.calculate", K+"reaction.py:Reaction.is_excitation_allowed", K+"pipeline.py:KinematicsPipeline.run"])
p("Decay.calculate conserves four-momentum and puts products on their mass shell",
  "For every allowed decay of any moving parent, parent = residual_1 + residual_2, residual_1 has its rest mass, residual_2 rest mass plus excitation; is_excitation_allowed implies that calculate does not raise.",
  "all timelike parents, masses, angles, excitations (exact arithmetic)",
  "Continuum of inputs.",
  [K+"reaction.py:Decay.calculate", K+"reaction.py:Decay.is_excitation_allowed"])
p("pipeline validation",
  "KinematicsPipeline accepts a list of steps exactly when it is non-empty, has as many excitations and polar distributions as steps, starts with a Reaction, continues with Decays only, and each Decay's parent has the isotopic symbol of the previous step's residual; otherwise it raises PipelineError.",
  "all lists of steps, excitations and distributions of any length",
  "Unbounded lists.",
  [K+"pipeline.py:KinematicsPipeline.__init__"])
p("nucleus arrays describe the event rows",
  "get_proton_numbers and get_mass_numbers have 4+2k entries, in the order of the event rows, and Z and A summed over the final products equal Z and A of target plus projectile.",
  "all accepted pipelines of any length",
  "Unbounded chain length.",
  [K+"pipeline.py:KinematicsPipeline.get_proton_numbers", K+"pipeline.py:KinematicsPipeline.get_mass_numbers"])
p("sampling limit",
  "run returns the event of the first energetically allowed sample if one occurs within the first event_sample_limit samples, having drawn exactly up to it; otherwise it raises PipelineError after exactly event_sample_limit samples (none if the limit is not positive), unless a calculation raises first.",
  "all sample sequences and limits",
  "Universal over random histories.",
  [K+"pipeline.py:KinematicsPipeline.run"])
p("events contain no stale data",
  "The event returned by run is a function of the accepted sample only: all its rows are written from that sample, whatever the buffer held from rejected samples or earlier events.",
  "all buffers and histories of rejected samples",
  "Universal over hidden state.",
  [K+"pipeline.py:KinematicsPipeline.run"])
p("returned events alias one buffer",
  "The array returned by run is the pipeline's own buffer: a later run on the same pipeline overwrites an event a caller kept. The kinematics file is not affected because each event is copied to disk before the next run.",
  "all sequences of runs; witness",
  "Depends on call history.",
  [K+"pipeline.py:KinematicsPipeline.run", K+"pipeline.py:run_kinematics_pipeline"])
p("whole-chain conservation",
  "In every event returned by run, target + projectile equals the sum of the four-momenta of all final products, and every decaying nucleus row equals the sum of its product rows.",
  "all chains of any length, all samples (exact arithmetic)",
  "Unbounded chain length, continuum of samples.",
  [K+"pipeline.py:KinematicsPipeline.run"])
p("check_excitations_allowed",
  "The total-energy check subtracts the masses of all decay products without adding back the decaying nucleus: for a chain with decays it returns False even when every step is energetically allowed; for a chain without decays it agrees with energy conservation at rest.",
  "all pipelines with at least one decay; witness",
  "Universal over pipelines.",
  [K+"pipeline.py:KinematicsPipeline.check_excitations_allowed"])
p("kinematics file layout",
  "run_kinematics_pipeline stores event e as event_e in chunk_(e // chunk_size) for every e < n_events and nothing else; chunk ranges tile 0..n_events-1; n_chunks is max(1, ceil(n_events/chunk_size)).",
  "all event numbers and chunk sizes >= 1",
  "Chunks hold a million events; tests never cross a chunk boundary.",
  [K+"pipeline.py:run_kinematics_pipeline", K+"pipeline.py:CHUNK_SIZE"])
p("file round trip",
  "run_simulation and convert_kinematics read back from a finished file exactly the events, vertices and nuclei that were generated, in order: the dataframe has n_events * n_nuclei rows, row (e, i) holding nucleus i of event e.",
  "all pipelines, event numbers and chunk sizes >= 1",
  "Universal over file contents and chunk boundaries.",
  [K+"convert_kinematics.py:convert_kinematics_hdf5_to_polars", D+"simulator.py:run_simulation", K+"pipeline.py:run_kinematics_pipeline"])
p("interrupted kinematics generation is not mistaken for a finished file",
  "If generation raises at event k, the file holds exactly events 0..k-1 but announces n_events; run_simulation on it raises before simulating anything, and conversion raises instead of returning a truncated dataframe.",
  "all failure points k < n_events",
  "Quantifies over crash points.",
  [K+"pipeline.py:run_kinematics_pipeline", D+"simulator.py:run_simulation", K+"convert_kinematics.py:convert_kinematics_hdf5_to_polars"])
p("sampled vertices",
  "Without a target material the vertex is the origin and the beam energy the nominal one; with one, z lies in z_range, the radius is |normal draw| and the beam energy is reduced by the energy loss up to that z.",
  "all random draws and materials (exact arithmetic)",
  "Universal over draws.",
  [K+"pipeline.py:KinematicsPipeline.sample"])
p("PolarUniform",
  "For 0 <= angle_min <= angle_max <= pi every sample lies in (angle_min, angle_max] (when the limits differ), every angle of that interval is attained, and the sample is uniform in cos(polar): the sample is at most t exactly when the underlying uniform draw is at least (cos t - cos angle_max)/(cos angle_min - cos angle_max).",
  "all angle limits, draws and t (exact arithmetic)",
  "Statement about a distribution, for all parameters.",
  [K+"angle.py:PolarUniform"])
p("PolarArbitrary",
  "Every sample lies in a bin [angle, angle+width) of a listed angle with non-zero probability; the constructor accepts exactly the probability arrays whose sum is at most 1, so arrays summing to less are accepted and fail only at sampling; because the sum is a binary64 sum, probabilities whose exact sum is one can be rejected. The bin is not clipped at pi: an angle beyond pi is passed on, and Reaction.calculate and Decay.calculate take it as the angle 2 pi - theta on the opposite side (a negative one as -theta on the opposite side).",
  "all angle and probability arrays, all draws; binary64 witness",
  "Universal over arrays; rounding corner.",
  [K+"angle.py:PolarArbitrary"])
p("excitation sampling",
  "ExcitationUniform samples stay within [min, max]; ExcitationGaussian with zero width is deterministic, and otherwise its width is the full width at half maximum (the density at centroid +- width/2 is half the maximum to within 1e-4); ExcitationBreitWigner returns total energy minus rest mass; negative excitations are not rejected anywhere in the chain, so a residual can be lighter than its ground state.",
  "all parameters and draws (exact arithmetic); witness",
  "Universal over draws.",
  [K+"excitation.py:ExcitationGaussian", K+"excitation.py:ExcitationUniform", K+"excitation.py:ExcitationBreitWigner", K+"pipeline.py:KinematicsPipeline.run"])
p("tracks are cut off after a microsecond",
  "Every track has at most 10001 rows, all within the first microsecond; a nucleus that has met no stopping condition by then is cut off there and the energy it still carries is never deposited. The comment that the time limit is never reached is false for slow nuclei: there is an exact track that ends in the middle of the gas with more than ten times the stopping energy.",
  "all vertices, momenta, nuclei and fields; witness",
  "Tests use fast particles; the statement is about all tracks.",
  [D+"solver.py:TIME_STEPS", D+"solver.py:generate_trajectory"])
p("generated events, end to end",
  "A kinematics file generated without error holds, as event e, the first kinematically allowed sample drawn after event e-1 was complete, found within the sampling limit, with its own vertex - although run re-uses one buffer for all events; generation succeeds exactly when the draws provide such samples. Read back, all momenta of the event are numbers on their mass shells and the nuclei simulated by default carry the four-momentum of target and projectile.",
  "all reaction chains, random streams, event numbers and chunk sizes",
  "Composition of sampling, rejection, buffer re-use, file layout and reading, for all random streams.",
  [K+"pipeline.py:run_kinematics_pipeline", K+"pipeline.py:KinematicsPipeline.run", D+"simulator.py:run_simulation"])
p("detector simulation, end to end",
  "With a Config that the constructor accepted (detector length between 1 mm and 1 km, fewer than 2^20 time buckets) and tracks that stay within one detector length of the detector, the writer never raises on a cloud made by simulate; a run over a file whose events can be read and simulated completes, and the run files hold exactly the processed clouds of the events that left points, in order, max_events per file (only the last may be shorter), with min_event/max_event ranges that contain them and are disjoint, and no other file changes.",
  "all configurations, pad tables, kinematics files, random streams and previous disk contents",
  "Composition of transport, cloud and writer over all inputs; the writer's failure modes must be excluded for every cloud.",
  [D+"simulator.py:run_simulation", D+"simulator.py:simulate", D+"writer.py:SpyralWriter.write", D+"parameters.py:Config"])
p("tracks in vacuum are helices",
  "Without stopping and electric field, every solution of the equations of motion is the relativistic helix around the field axis: all rows of a track lie on one circle in the xy plane whose radius times |q B| is the transverse momentum, energy and p_z are constant, and the sense of rotation is that of a field of the configured sign. The helix is a solution for every start.",
  "all constants, nuclei, starts and field strengths (exact arithmetic, ideal solver)",
  "Statement about all solutions of a differential equation.",
  [D+"solver.py:equation_of_motion", D+"solver.py:generate_trajectory"])
p("range and stopping time",
  "With stopping power at least s a nucleus is never further from the vertex than the energy it has lost divided by s; it loses energy at most at the rate s_max c and at least at the rate s v, so it stays above an energy k no longer than (E0 - k)/(s v(k)). With the repository's units (MeV, g/cm^3, m) no row of a track is further from the vertex than E0 - E over density * 100 * dE/dx, and a nucleus that loses its energy fast enough meets a stopping condition before the microsecond is over.",
  "all stopping powers bounded on the track, magnetic fields and starts (exact arithmetic, ideal solver)",
  "Statement about all solutions of a differential equation.",
  [D+"solver.py:equation_of_motion", D+"solver.py:generate_trajectory", D+"solver.py:stop_condition"])
p("symmetries of tracks",
  "Turning vertex and momentum around the beam axis turns the whole track and changes nothing else, stopping included; reflecting in a plane through the axis reverses the magnetic field; the position enters the equations nowhere. A positive electric field setting pushes positive nuclei in the direction of -z, with force q E.",
  "all states, angles, nuclei and fields (exact arithmetic)",
  "Relation between two runs, for all inputs.",
  [D+"solver.py:equation_of_motion", D+"solver.py:rho_bound_condition", D+"solver.py:stop_condition"])
p("width of the diffused charge",
  "The charge of a point at z is spread with sigma^2 = 2 * diffusion * drift / efield, and points further from the micromegas are spread wider. The drift used is not length - z but longer by micromegas_edge time buckets, so that even a point at the micromegas is spread unless that edge is 0.",
  "all lengths, edges, positions, diffusion constants and fields (exact arithmetic); witness",
  "Universal over parameters; the offset is invisible in tests with edge 0.",
  [D+"transporter.py:transport_track", D+"solver.py:generate_point_cloud", D+"parameters.py:Config.calculate_drift_velocity"])
p("where a track starts",
  "A nucleus emitted backwards from the window plane (the vertex of every event without a target material is the origin) has its vertex as whole track and makes no electrons. A nucleus that starts below the stopping energy is never ended by the stopping condition. A nucleus that starts outside the detector is not stopped at the boundary: there is a track all of whose rows lie beyond the micromegas.",
  "all starts, nuclei, fields and stopping powers (exact arithmetic, ideal solver); witness",
  "Event directions act only on crossings; needs all solutions of the equation.",
  [D+"solver.py:generate_trajectory", D+"solver.py:backward_z_bound_condition", D+"solver.py:stop_condition"])
p("failed writes",
  "Whichever calls of write fail - because the cloud cannot be converted or the current file already has an event of that number, the only reasons - a caller who goes on finds in the run files exactly the events of the calls that succeeded, in order, every file but the last one full; nothing stored before is lost. With increasing event numbers the min_event/max_event ranges still contain the stored events and are disjoint, but min_event can be the number of an event that was never stored.",
  "all call sequences, configurations, limits and previous disk contents",
  "All interleavings of failing and successful calls, including failures just after a new file was opened.",
  [D+"writer.py:SpyralWriter.write", D+"writer.py:SpyralWriter.create_next_file", D+"writer.py:SpyralWriter.close"])
p("rounding near threshold",
  "In binary64 a break-up with masses of at least 1 MeV has a real momentum, with energy and squared momentum within (2 d + 2^-50) M and (5 d + 2^-48) M^2 of the textbook values (d: relative error of the parent's rest-frame energy), provided the energy available Q satisfies Q m2 >= (d + 2^-50) M^2. An excitation for which is_excitation_allowed (Q > 0) returns true is not always possible in this sense: there are masses and an energy three units in the last place above threshold for which it returns true and the momentum is NaN.",
  "all masses from 1 MeV up, parent energies up to 1 TeV, any x**2.0 within one ulp and monotone; witness",
  "Depends on the rounding of particular 53-bit inputs.",
  [K+"reaction.py:Decay.calculate", K+"reaction.py:Decay.is_excitation_allowed", K+"reaction.py:Reaction.calculate"])
p("stored points lie on the tracks",
  "Every row of a stored cloud with label l lies, in z, within one time bucket (plus 2^-28 of it, rounding included) of a point of the track of nucleus l at which that nucleus made electrons; x, y and size are those of the pad that the grid has under that point or under a point of the diffusion mesh around it; its amplitude exceeds the threshold. Simulation and writer work with the length, edges and threshold of the same configuration.",
  "all detectors from 1 mm to 1 km with up to 2^20 buckets, grids, tracks, random numbers, events (binary64)",
  "End-to-end over simulation, smearing, conversion, threshold and sorting, with floating-point error.",
  [D+"simulator.py:simulate", D+"solver.py:generate_point_cloud", D+"writer.py:convert_to_spyral", D+"writer.py:SpyralWriter.write", D+"parameters.py:Config"])
p("four-momentum conservation in binary64",
  "In an accepted event whose last row is finite all rows are finite, and every component of the four-momentum is conserved in each step up to one rounding (2^-53 relative to the row computed as a difference, and to the initial sum); the nuclei that are simulated by default carry the initial four-momentum up to the sum of these roundings. Exact conservation does not hold.",
  "all masses, energies, angles, excitations, decay chains, any sin, cos, power and boost of the vector library (binary64); witness",
  "Universal over 53-bit inputs and chain lengths; independent of how accurate the boost is.",
  [K+"reaction.py:Reaction.calculate", K+"reaction.py:Decay.calculate", K+"pipeline.py:KinematicsPipeline.run", D+"simulator.py:run_simulation"])
p("events have no preferred azimuth",
  "Adding the same angle to all azimuthal angles of a sample turns the whole event around the beam axis and changes nothing else: acceptance, exceptions, energies and longitudinal momenta stay the same. Energies and longitudinal momenta of the reaction products do not depend on the azimuthal angle at all.",
  "all reactions, chains, samples and angles (exact arithmetic)",
  "Relation between two runs, for all inputs.",
  [K+"reaction.py:Reaction.calculate", K+"reaction.py:Decay.calculate", K+"pipeline.py:KinematicsPipeline.run"])
p("kinematic curves",
  "Ejectile and residual have the textbook laboratory energies and momenta for the sampled centre-of-mass angle: transverse momentum k sin(theta), energy (E e + p k cos(theta))/m. The ejectile's energy falls strictly and the residual's rises strictly with the angle; polar angle 0 is forward. Every ejectile lies in the cone sin(alpha) = k m / (m_e p) and the cone's edge is reached.",
  "all allowed reactions, energies, angles and excitations (exact arithmetic)",
  "Universal over a continuum; monotonicity and extremal angles cannot be sampled.",
  [K+"reaction.py:Reaction.calculate"])
p("stored cloud is exactly what passes the threshold",
  "For a contained event the stored rows are in one-to-one correspondence with the cells (time bucket, pad) whose collected electrons, convolved with the response, exceed the threshold: each such cell with bucket 0 to 510 has exactly one row, no other row exists, and pad, position, size, amplitude, integral and label of a row are those of its cell.",
  "all configurations, tracks, grids, random numbers, responses (binary64)",
  "Completeness: no point is lost between deposition and file, over all inputs.",
  [D+"simulator.py:simulate", D+"simulator.py:dict_to_points", D+"writer.py:SpyralWriter.write", D+"writer.py:convert_to_spyral", D+"response.py:apply_response"])
p("gain and threshold act monotonically",
  "Raising the ADC threshold removes exactly the rows whose amplitude does not exceed the new threshold and changes no other. Raising the micropattern gain, with the same random numbers, keeps every point of the cloud in the same cell with the same label and at least as many electrons, and every stored row stays stored with at least its amplitude and integral, as long as no electron count overflows 64 bits. Without that bound it is false: electrons *= mpgd_gain wraps around silently, a higher gain can make a charge negative, and its row is then not stored.",
  "all pairs of thresholds and gains, events, tracks, grids, responses without negative entries (binary64)",
  "Relation between two runs with rounding and truncation at every pixel.",
  [D+"parameters.py:ElectronicsParams", D+"solver.py:generate_point_cloud", D+"transporter.py:transport_track", D+"writer.py:SpyralWriter.write"])
p("from random draws to run files",
  "Generating n events and simulating the file gives run files that hold, in order, for each generated event that left points, the processed cloud of its own sample under its own number and nothing else; files are filled to the maximum, their event ranges do not overlap, and other files are untouched.",
  "all pipelines, sample sequences, chunk sizes, detectors, writers' limits and run numbers, numbers of events",
  "End-to-end across two programs and two file formats.",
  [K+"pipeline.py:run_kinematics_pipeline", D+"simulator.py:run_simulation", D+"writer.py:SpyralWriter.write", K+"pipeline.py:KinematicsPipeline.run"])
p("energies at which simulated nuclei start",
  "A nucleus of an event enters the detector with the momentum of its row in the kinematics file and its ground-state mass. In its ground state it starts with exactly the kinetic energy of its row. Left excited by ex it starts with more than that, by a factor of at most 1 + ex/m. The rest masses and starting energies of the nuclei simulated by default add up to the energy of the entrance channel minus the excitation left over, plus that excess; the excess is not zero (witness), so energy is not conserved between the two programs for excited residuals.",
  "all reactions, decay chains, samples, vertices (exact arithmetic)",
  "Cross-module accounting of energy over all kinematics; the two programs use different masses.",
  [K+"pipeline.py:KinematicsPipeline.run", D+"solver.py:generate_trajectory", D+"simulator.py:run_simulation", K+"reaction.py:Reaction.calculate"])
p("vertices lie where the beam still reacts",
  "In a generated file every event has its vertex within the z range of the target, at a depth at which the beam, slowed down on its way, is above the threshold of the reaction to the sampled excitation; its projectile row has exactly that energy along z. No event lies at or beyond the depth at which the beam falls to the threshold, and a reaction that needs energy never happens after the beam has stopped. A reaction that sets energy free is generated with a stopped beam (witness).",
  "all beams, targets with any energy loss that grows with depth, reactions, chains, numbers of events",
  "Universal over samplers and energy-loss functions; concerns what never happens.",
  [K+"pipeline.py:KinematicsPipeline.run", K+"pipeline.py:KinematicsPipeline.sample", K+"reaction.py:Reaction.is_excitation_allowed", K+"pipeline.py:run_kinematics_pipeline"])
p("rounding in the creation of electrons",
  "The kinetic energy computed for a row of a track is finite and is the relativistic kinetic energy up to 2^-48 of the total energy. The mean number of electrons of a row is the exact energy loss divided by W up to 2^-47 of the total energy divided by W, and zero for the first row. Converting the drawn number to an integer never fails and what is truncated is the normal variate up to 2^-50 of its terms. A nucleus whose kinetic energy does not change between two rows makes no electrons there, whatever the draw. At rest the conversion fails.",
  "all masses from 1 to 2^100 MeV, momenta between 2^-100 and 2^100 mc, W-values, Fano factors up to 1, tracks, draws up to 32 sigma (binary64)",
  "Error analysis over all 53-bit inputs, with cancellation in gamma - 1 and in the differences.",
  [D+"solver.py:generate_electrons"])
p("the charge of a cloud measures the energy lost",
  "Without diffusion the charges of an event's cloud add up to at most the gain times the energy its nuclei lost along their tracks divided by W, plus two electrons per row and the drawn Fano fluctuations; and to at least that minus the same allowance when every row falls on a pad and in the time window. For a nucleus that never gains energy the sum over its rows is its first kinetic energy minus its last.",
  "all events, nuclei, tracks, masses, W-values, gains, Fano factors up to 1, draws up to 32 sigma (binary64)",
  "Calorimetry: a sum over all rows, nuclei and pads with rounding and truncation at each; needs universal bounds.",
  [D+"simulator.py:simulate", D+"solver.py:generate_electrons", D+"solver.py:generate_point_cloud", D+"transporter.py:point_transport"])
p("tests for allowed excitations in floating point",
  "The decay test compares the parent's mass exactly with the computed sum of the masses: it answers correctly outside 2^-51 of the sum and everywhere if the sums are representable; a decay it allows is calculated without an error. The reaction test answers correctly outside 2^-48 E^2/m of the threshold (E total laboratory energy, m total centre-of-mass energy).",
  "all masses up to 2^20 MeV, beam energies from 2^-12 to 2^20 MeV, excitations, and any float power accurate to one unit in the last place (binary64)",
  "Universal error bound with cancellation; wrong answers can only occur arbitrarily near the threshold.",
  [K+"reaction.py:Reaction.is_excitation_allowed", K+"reaction.py:Decay.is_excitation_allowed", K+"reaction.py:Decay.calculate"])
p("rounding in the equation of motion and the ends of tracks",
  "The right-hand side is computed without an error and finite; the velocity is c p/gamma up to 2^-48 of the speed and exceeds c by no more than rounding; the force is the Lorentz force plus drag up to 2^-47 of its terms, with the stopping power taken at the kinetic energy up to 2^-48 of the total energy. The stopping condition has the sign of the kinetic energy minus 1 eV outside 2^-48 of the total energy, the conditions in z have exactly the right sign, that in rho outside 2^-49. At rest, and for momenta whose square underflows, ZeroDivisionError is raised.",
  "all momenta between 2^-100 and 2^100 mc, masses, charges, fields, constants and stopping powers between 2^-110 and 2^110 in size, and any float power accurate to one unit in the last place (binary64)",
  "Error analysis over all floating-point states that a solver may visit.",
  [D+"solver.py:equation_of_motion", D+"solver.py:stop_condition", D+"solver.py:forward_z_bound_condition", D+"solver.py:rho_bound_condition"])
p("parameters changed after a Config was made",
  "A Config keeps references to the parameter objects but computes the drift velocity only when it is made and in calculate_drift_velocity. After any script of attribute assignments, constructions and calculations, an electron set free at z is stored at L - (L - z) b / b1, with L the length and b the bucket length (length / (windows_edge - micromegas_edge)) at the time of simulation and b1 the bucket length when the velocity was last calculated. So positions are right for all z exactly when the bucket length is unchanged, in particular when nobody assigned to the Config's parameters after the last calculation. They are wrong otherwise: after length = 0.5 the window is stored at 250 mm, and a second Config that shares the parameter object goes wrong when the first is changed and recalculated.",
  "all scripts, all initial objects, all z (exact arithmetic)",
  "Depends on the order of an unbounded number of assignments and calculations on shared objects.",
  [D+"parameters.py:Config.__init__", D+"parameters.py:Config.calculate_drift_velocity", D+"solver.py:generate_point_cloud", D+"writer.py:convert_to_spyral"])
p("sampled values in floating point",
  "With well-formed distributions no draw raises an error. Vertex positions along z, uniform excitations and polar angles lie in the closed ranges asked for, rounding included; azimuthal angles are below the rounded 2 pi; a tabulated polar angle lies in a bin whose probability is not 0; the argument of arccos stays within [-1, 1]; the beam energy at the vertex is between 0 and the initial one. The upper end of a range can be reached (numpy's half-open interval does not hold). A Gaussian excitation is centroid + width/2.355 times the standard normal draw up to rounding, and a Breit-Wigner one is exactly the drawn mass less the rest mass, drawn around rest mass + centroid in units of the width.",
  "all generators whose draws lie in [0, 1 - 2^-53], all targets, distributions and numbers of decays (binary64; cos, sin, arccos bounded and arccos monotone)",
  "The ends of ranges are reached for rare draws only; needs all draws and all ranges.",
  [K+"pipeline.py:KinematicsPipeline.sample", K+"angle.py:PolarUniform.sample", K+"angle.py:PolarArbitrary.sample", K+"excitation.py:ExcitationUniform.sample"])
p("superposition of nuclei",
  "An event can be simulated exactly when its nuclei can be simulated one after the other on their own (the generator being handed on). The event's charge in every cell is then the sum over the nuclei of the charges they leave alone (modulo 2^64), and the label is that of the last one that reaches the cell; the returned cloud has one point per cell reached by any of them.",
  "all events, nuclei, tracks, electrons, grids, generators and diffusion settings (binary64)",
  "Compares two families of runs for every event; nuclei interact only through a shared dictionary.",
  [D+"simulator.py:simulate", D+"solver.py:generate_point_cloud", D+"transporter.py:transport_track"])
p("Amplitude and integral measure the charge: rounding in the electronics response",
  "With exp, sin and the third power accurate to one unit in the last place, every one of the 512 samples computed by get_response in binary64 lies within c1/2^48 of the documented formula, where c1 = 4095 e/gain/1e-15. For n electrons, apply_response returns an amplitude within n c1/2^47 counts of min(4095, n times the peak of the formula), and an integral within n c1/2^37 counts of the sum of the clipped samples of the formula. Below saturation, amplitude divided by electrons is the same for any two charges up to c1/2^46.",
  "all constants, gains and shaping times in the stated ranges, all clocks, all charges from one electron upwards, all library functions with the stated accuracy",
  "A test compares one response with a reference computed by the same formula in the same arithmetic; it bounds the rounding error for no other parameters and not at all for the sum of 512 samples.",
  [D+"response.py:get_response", D+"response.py:apply_response"])
p("What is stored measures the energy lost in the gas",
  "Every row stored for an event measures the charge of one point of the cloud: the amplitude is min(4095, n*peak) and the integral the sum of min(4095, n*f(i)) of the documented response f, up to a relative rounding of 2^-47 and 2^-37; points left out are those below the threshold up to rounding. Below saturation the integrals add up to the response area times the charge kept, and for tracks contained in the pad plane without diffusion the charge kept and lost is the gas gain times the energy lost over W, up to truncation and Fano fluctuation.",
  "for all parameters in the physical range, all libm functions accurate to a unit in the last place, all nuclei, trajectories, random draws, thresholds, and every write",
  "A test compares with a number computed by the same formula; the relation between the file and the physics runs through five stages of rounding, truncation and selection",
  [D+"writer.py::convert_to_spyral", D+"writer.py::SpyralWriter.write", D+"response.py::apply_response", D+"response.py::get_response", D+"simulator.py::simulate"])
p("Masses of the products in binary64",
  "When the calculation of a reaction or decay in binary64 returns rows, the squared invariant mass of the first product row differs from the square of its mass, and that of the second product row from the square of its mass plus excitation, by at most (16 delta + 64 eps + 2^-44) times the square of the parent's energy. Here delta bounds the relative error of the rest energy and eps the error of the boost in units of the parent's energy. This holds for every pair of product rows of an event with its own parent row. Each component also agrees with the exact calculation up to a stated tolerance.",
  "for all masses, excitations, angles and parents in range, all chains of decays, all vector libraries within the stated error bounds, whenever the parent's mass exceeds that of the products by more than the rounding errors",
  "Tests compare a few reactions with reference values to a loose tolerance; they do not bound the rounding error over all parents and angles, nor after a chain of decays.",
  [K+"reaction.py::Reaction.calculate", K+"reaction.py::Decay.calculate", K+"pipeline.py::KinematicsPipeline.run"])
p("A whole event in binary64",
  "If the nominal masses leave the reaction and every decay open by twice a tolerance t, and the beam clears the threshold that Reaction.calculate uses by t, then the binary64 calculation of the event neither raises nor asks for another sample. Its rows are finite; the target row is exactly at rest; the projectile row is the beam; every product row has positive energy and its nominal squared mass to within t; each pair of products adds up to its parent row to within 2^-50 of the total energy. The tolerance is t = (16 delta + 64 eps + 2^-44) E0^2 with E0 above the total energy, whatever the number of decays.",
  "for all masses, beam energies, excitations, angles and decay chains of any length meeting these conditions, all vector libraries with relative error delta in rest energies and masses and eps in boosts of parents whose energy is at most g times their mass, with E0 at most g times each parent's mass less 1",
  "Tests run a few chains of one or two decays; that no combination of masses and angles raises, yields NaN or drifts off the mass shell in a longer chain needs an induction with error bounds.",
  [K+"pipeline.py::KinematicsPipeline.run", K+"reaction.py::Reaction.calculate", K+"reaction.py::Reaction.is_excitation_allowed", K+"reaction.py::Decay.calculate", K+"reaction.py::Decay.is_excitation_allowed"])
p("The vector library's formulas are accurate enough",
  "With the Cartesian formulas of the vector library (velocity p/E, gamma from 1/sqrt(1-beta^2), boost matrix, mass as the root of the squared difference) evaluated in binary64, a parent whose energy is at most g times its mass has its mass and its rest-frame energy computed to relative error g^2/2^48, and products are boosted to within g^2/2^44 of the parent's energy. The formulas never divide by zero, take the root of a negative number or return NaN there. Hence a whole event is calculated without exception and with its masses, given only that power, sine and cosine are accurate.",
  "for all finite timelike parents of mass at least 1/2 MeV, energy at most 2^20 MeV and g up to 2^11.5; all vectors with components up to twice the parent's mass; all reactions and decay chains meeting the conditions of C85",
  "1-beta^2 cancels: the loss grows with the square of gamma and depends on the rounding of every operation, which examples do not bound.",
  [K+"reaction.py::Reaction.calculate", K+"reaction.py::Decay.calculate", K+"reaction.py::Decay.is_excitation_allowed"])
p("Diffusion creates no charge in binary64 when the spread is resolvable",
  "In binary64, with a libm exponential within a relative 2^-40 on [-20, 0], if the diffusion width of every track row is zero or between a nanometre and a kilometre and at least 2^-30 of the row's coordinates, then pixel (i, j) of the mesh sits at its place up to 1/400000 of the width, gets its share of the bivariate normal times the electrons up to one part in ten thousand and the truncation, the deposits of a row never sum to more than its electrons, a track adds at most its electrons to the cloud for every pad grid, and if every pixel lands on an active pad at most 0.22 % plus one electron per pixel are lost. Moderate detector settings and positions within 10 m of the axis satisfy the condition.",
  "all binary64 rows, widths in the stated range, exponential functions of the stated accuracy, grids, edges, electron numbers up to 2^53, tracks, prior clouds and labels",
  "the exact-arithmetic bound (C11) is false in floating point in general (C12), so no finite set of sample tracks says where it starts to hold; this needs an error analysis over all coordinates and widths",
  [D+"transporter.py:transverse_transport", D+"transporter.py:transport_track", D+"transporter.py:bivariate_normal_pdf", D+"transporter.py:meshgrid"])
p("With diffusion the charge of a cloud still measures the energy lost",
  "With transverse diffusion of a width that is resolvable at the position of the rows (C87), the electrons of a simulated cloud add up to at most gain times (energy lost over W, plus two electrons per row and the Fano fluctuations drawn); if all pixels of all rows are above active pads and within the buckets 0 to 510, they add up to at least 99.78 % of gain times (energy lost over W minus these allowances), less 100 electrons per row. Every point holds a whole number of electrons.",
  "all configurations, tracks, nuclei, random numbers, pad grids, and exponentials accurate to 2^-40 on [-20, 0]",
  "A test sees a few events; the bound has to hold for every position, width and electron number, where rounding of 100 pixels per row could create or lose charge.",
  [D+"simulator.py:simulate", D+"solver.py:generate_point_cloud", D+"solver.py:generate_electrons", D+"transporter.py:transport_track", D+"transporter.py:transverse_transport", D+"transporter.py:bivariate_normal_pdf"])
p("Ordinary events never make the simulation fail",
  "With an accepted Config (packaged pad plane, length 1 mm to 1 km, micromegas edge at least 1, gain up to 2048, no or positive diffusion, positive field), an event whose charged nuclei are in the nuclear table and whose tracks exist, stay within the detector length and move within the bounds of C75 is always simulated: no exception and no out-of-range native conversion or access, whatever the random numbers; a run over a file of such events, all readable, completes. A charged nucleus that the table lacks makes simulate raise. In a detector shorter than the fixed 1 m of the stopping conditions, with diffusion, a row that makes electrons at a negative drift time makes it undefined behaviour.",
  "all configurations in range, events, tracks, random numbers, files, and run lengths",
  "Absence of failures over all events and random numbers; the failing case is silent memory corruption in compiled code.",
  [D+"simulator.py:simulate", D+"simulator.py:run_simulation", D+"solver.py:generate_point_cloud", D+"transporter.py:transport_track", D+"transporter.py:position_to_index"])
p("With diffusion, what is stored still measures the energy lost in the gas",
  "For an event simulated with diffusion of resolvable width and written below saturation, the stored integrals add up to the response area times the charge kept, up to 2^-37 of it; the charge kept and lost is at most gain times (energy lost over W plus the allowances of C88), and at least 99.78 % of gain times (energy lost over W less the allowances) less 100 electrons per row when the tracks are contained; the charge lost is bounded by the threshold times the number of points left out.",
  "all parameters in the physical range, libm functions accurate to a unit in the last place, nuclei, trajectories, random draws, widths, thresholds and writes",
  "A test compares single numbers of one event; the relation between file and physics goes through diffusion, truncation, response and selection, each with its own rounding.",
  [D+"simulator.py:simulate", D+"transporter.py:transverse_transport", D+"response.py:apply_response", D+"writer.py:convert_to_spyral", D+"writer.py:SpyralWriter.write"])
p("From the beam energy to the charge of the cloud",
  "A nucleus starts its track with the kinetic energy of its row of the event, up to the mass tolerance of C86 over its mass and 2^-50 of the energy. For an event made in binary64 and simulated with the default choice of nuclei, the electrons of the cloud add up to at most gain times (available energy over W plus the allowances of C88), where the available energy is beam energy plus rest energies of beam and target, minus the rest energies of the final nuclei, minus the kinetic energy of neutral nuclei, minus what the charged ones have left where their tracks end; if the tracks are covered by active pads, the electrons add up to at least 99.78 % of it, less the allowances.",
  "all reactions with any number (up to 1000) of decays that are open by a margin, all angles and excitations, solvers that start from the given state and only lose energy, all pad planes, widths, random numbers and choices of W, Fano factor and gain",
  "A test can follow one event through one stage; the balance runs from the kinematics file through the ODE, truncation to integers and diffusion, and an error of a factor (wrong mass, wrong units, double counting of an intermediate nucleus) is invisible at any single stage.",
  [D+"solver.py:generate_trajectory", D+"solver.py:generate_electrons", D+"simulator.py:simulate", D+"simulator.py:run_simulation", K+"pipeline.py:KinematicsPipeline.run"])
p("Kinematics files in binary64, from the draws to the rows read back",
  "Event k of a finished kinematics file is the event that the calculation in double precision gives for one sample of the pipeline: the vertex and the rows read back belong to the same sample, the samples are drawn in order from the one generator, those drawn in between were rejected, and fewer than run()'s limit of them per event. A run fails only when the limit is used up, when a draw raises or when the calculation raises. If the sampling ranges leave room above every threshold, no sample is rejected, every file of any length is finished, and every event read back conserves four-momentum and lies on its mass shells up to rounding, with vertices inside the target and beam energies in range.",
  "all masses, decay chains, distributions, targets, generators, chunk sizes, numbers of events, starting buffers and generator states; draws in [0, 1 - 2^-53]; pow, sin and cos accurate to rounding",
  "The file depends on thousands of random draws and a buffer reused between attempts and events; a test sees one seed and cannot show that rows of a rejected attempt never survive, nor that every seed gives a physical event.",
  [K+"pipeline.py:KinematicsPipeline.run", K+"pipeline.py:KinematicsPipeline.sample", K+"pipeline.py:run_kinematics_pipeline", K+"reaction.py:Reaction.calculate", K+"reaction.py:Decay.calculate"])
p("Generating and simulating a reaction in double precision never fails",
  "If the sampling ranges leave room above every threshold (C92) and the configuration is accepted and in range (C89), then run_kinematics_pipeline finishes with sound events, and run_simulation on its file, for any choice of nuclei that the table knows, runs to the end with a cloud for every event, unless a charged nucleus to simulate is at rest in its event. If a simulated nucleus is at rest in a later row of its track, its number of electrons is not a number and simulate raises; asking for the target nucleus does this in every event.",
  "all reactions, decay chains, targets, distributions, generators, event numbers, chunk sizes, detector and electronics parameters in range, solvers that stay in the detector and do not accelerate, random numbers and response functions",
  "A test runs one script with one seed; the failing combinations (a nucleus at rest, a rejected draw, an index outside the pad map) are isolated points of the input space.",
  [K+"pipeline.py:run_kinematics_pipeline", D+"simulator.py:run_simulation", D+"simulator.py:simulate", D+"solver.py:generate_trajectory", D+"solver.py:generate_electrons"])
p("How often a sampled value comes up",
  "Counted over the 2^53 equally likely values of Generator.random: numpy's uniform(low, high), which gives the target's z and ExcitationUniform's energies, is at most x with the probability (x - low)/(high - low), up to 2^-50 (|low| + |high|)/(high - low) + 2^-53. PolarUniform is uniform in the cosine: the angle is below t with the probability (cos min - cos t)/(cos min - cos max), up to the error of arccos and rounding, and not in proportion to the angle. choice, which picks PolarArbitrary's bin, takes an entry with its listed probability over the sum of the table, up to (26 n + 5)/2^53.",
  "all finite ranges wider than 2^-900, all thresholds, all pairs of angles, all tables of up to 2^40 entries whose sum is 1 up to 10 %, all later draws",
  "A histogram of samples can only reject a wrong distribution at some significance; the count over all 2^53 draws is out of reach.",
  [K+"angle.py:PolarUniform.sample", K+"angle.py:PolarArbitrary.sample", K+"excitation.py:ExcitationUniform.sample", K+"pipeline.py:KinematicsPipeline.sample"])
p("From the beam energy to the integrals stored in the file",
  "For an event made in binary64, simulated with diffusion and the default choice of nuclei, and processed for writing below saturation: the stored integrals add up to the response area times the electrons kept, up to 2^-37; electrons kept and lost are at most gain times (available energy of C91 over W plus allowances), and at least 99.78 % of it less allowances when the tracks are covered; the lost ones are bounded by the threshold times the number of points left out.",
  "all open reactions and decay chains, angles, excitations, solvers that only lose energy, pad planes, widths, electronics parameters in the physical range, random numbers, thresholds",
  "Whoever analyses the file turns stored integrals back into energy; the relation spans every stage of the program and a test of any one stage cannot show it.",
  [D+"simulator.py:simulate", D+"response.py:get_response", D+"writer.py:convert_to_spyral", D+"solver.py:generate_trajectory", K+"reaction.py:Reaction.calculate"])
p("Every number of a sample has draws of its own; emission is isotropic and independent",
"KinematicsPipeline.sample makes the vertex, every excitation, every polar and every azimuthal angle from uniform draws of its own (no draw is used twice). Hence, whatever the other draws are: an emission with PolarUniform (of the reaction or of any decay) goes into the cone below x and the azimuths up to f with probability (cos amin - cos x)/(cos amin - cos amax) * f/(2 pi), up to rounding; the depth of the vertex is uniform in the target, and the excitation of ExcitationUniform uniform in its range; an angle of PolarArbitrary lies in any part of a bin with the probability of the bin times that part of its width; the vertex lies at (r cos theta, r sin theta) of one and the same theta, and the beam energy is that of the same depth.",
"for every target, list of excitations and angles, every step, every value of all the other draws, every cone and sector",
"independence of two sampled numbers is a statement about all 2^106 pairs of draws; a test sees finitely many samples and a reused draw changes no single distribution",
[K+"pipeline.py:KinematicsPipeline.sample", K+"pipeline.py:KinematicsPipeline.run", K+"angle.py:PolarUniform.sample", K+"angle.py:PolarArbitrary.sample", K+"excitation.py:ExcitationUniform.sample"])
p("Smeared times: one draw per point, uniform in the bucket, and how often a point is lost",
  "Once the charge of an event has been collected, the cloud simulate returns is a fixed function of the next uniform draws: one draw, its own, for each pad and bucket hit, in the order of the first deposits; the cell becomes one point with that pad, the bucket plus its draw as time and all charge collected, unless the draw takes it out of the window. Counted over the 2^53 values of the draw, the time is uniform in its bucket up to (tb+3)/2^53; for exactly 2^floor(log2 tb) of them (none for bucket 0) rounding makes the time tb+1, the next bucket. A point of buckets 0 to 510 is never lost, one of bucket 511 is lost for exactly 256 values, one of a later bucket always.",
  "all events, detector configurations, trajectories, electron numbers and lists of draws",
  "A test sees one stream of draws; the rounding to the next bucket has a chance of 2^-45 per point and never appears in one.",
  [D+"simulator.py:simulate", D+"simulator.py:dict_to_points"])

p("Which settings count when: a writer keeps the response it was made with",
  "In a script that makes Configs and SpyralWriters, assigns to attributes of the parameter objects and writes events in any order: the files of a writer hold the events handed to it, amplitudes and integrals under the response computed from gain, shaping time and clock as they were when the writer was made, threshold, edges and length as they were when the event was handed over (the values last assigned to the objects the Config refers to). A Config refers for ever to the objects it was made from and keeps the pad arrays loaded then. Once the writers are made, assignments to gain, shaping time and clock change no file (dropping them from the script leaves the same files); once the Configs are made, assignments to the paths of the pad files change neither the Configs nor a file. If the gain is raised k times after the writer was made, the amplitude stored below saturation is k times the one belonging to the new gain, up to n c1 / 2^46.",
  "all scripts (any number of objects, Configs, writers, assignments and events in any order), all clouds, any libm with the stated accuracy",
  "A test fixes one order of construction, assignment and writing; the effect depends on all of them.",
  [D+"writer.py:SpyralWriter.__init__", D+"writer.py:SpyralWriter.write", D+"response.py:get_response", D+"parameters.py:Config"])

p("The packaged pad plane: pads are found where they are, and the beam region is a hole of known size",
  "With the packaged map: a position for which a pad is found is within 5.57 mm in x and 4.80 mm in y of the centre padxy.csv lists for that pad, and every one of the 10240 pads is found at some position within 0.71 mm in x and in y of its listed centre. The beam pads are exactly the pads centred less than 20 mm from the axis; no charge is accepted at a position closer than 16.97 mm to the axis and no position farther than 23.41 mm is given to a beam pad. Hence the x and y of every stored row are within these 5.57 and 4.80 mm, plus 3.001 diffusion widths, of a point of the track whose label the row carries; and an event whose ionisation stays within 16.97 mm of the axis stores no row when there is no diffusion.",
  "all binary64 positions; all events, tracks, electron numbers and detector settings in the physical range; any reader of padxy.csv that rounds its numbers correctly",
  "The map has 31 million cells and the plane uncountably many positions; a test looks at a few of them.",
  [D+"transporter.py:position_to_index", D+"beam_pads.py:BEAM_PADS_ARRAY", D+"parameters.py:Config.load_pad_centers", D+"simulator.py:simulate", D+"writer.py:convert_to_spyral"])

p("Resampling leaves the shape of the distributions",
  "KinematicsPipeline.run throws away samples that are kinematically not allowed and samples everything again, up to event_sample_limit times. Among the runs that make a complete file, the events are independent of each other and each is distributed like a single sample given that it is allowed - not like something that depends on the limit, on earlier rejections, or on the contents of the result buffer. The error about the limit is exactly as likely as event_sample_limit samples in a row that are not allowed.",
  "for every pipeline with valid distributions, every finite random source (any weights), every limit >= 1, every number of events, every list of conditions on the events as read back from the file, every previous content of the result buffer",
  "The docstring claims that the shape of the sampled distributions is correct. A test can only histogram a finite sample of one pipeline; a bias from re-using parts of a rejected sample would be below its statistics, and independence of events cannot be observed at all.",
  [K+"pipeline.py:KinematicsPipeline.run", K+"pipeline.py:KinematicsPipeline.sample", K+"pipeline.py:run_kinematics_pipeline"])
p("The printed chain tells which chain it is",
  "str(pipeline), which run_kinematics_pipeline prints, determines the chain: two pipelines that print the same equation have the same target, projectile, ejectile and residual symbols, the same number of decays, and the same parent and products in each; if a symbol stands for one nucleus they also write the same proton_numbers and mass_numbers to the file. What stands between the separators is the symbols of target, projectile, ejectile, residual, then parent and products of each decay.",
  "all pairs of pipelines whose isotopic symbols do not contain ( ) , - > + or a space (a symbol with such a sign makes it false, with a witness)",
  "Injectivity is a statement about all pairs of chains of any length.",
  [K+"reaction.py:Reaction.__str__", K+"reaction.py:Decay.__str__", K+"pipeline.py:KinematicsPipeline.__str__"])
p("Truncation makes the number of electrons too small on average",
  "generate_electrons converts a Gaussian number of electrons per row to an integer by truncation. For tracks on which every row either loses nothing or loses at least fano g^2 + 1 electrons' worth (g: the standard normal drawn), the number of electrons of the track averaged over all draws is the energy lost over the W-value less at most one electron per row (up to 2^-10 per row), and never more than that energy over W: the Fano fluctuations do not make up for the truncation, and refining the track makes it worse. In the limit, a track whose rows each lose less than one electron's worth (with its fluctuation) makes no electrons at all, however much it loses in total. Without diffusion the charge of the cloud of an event is the gain times exactly this number of electrons when its tracks are contained, and never more.",
  "all tracks with finite momenta and up to 2^36 electrons in total, all W-values and Fano factors in [0, 1], every list of draws (|g| <= 16) that contains with each draw its negative, all words of such draws; all events, pad maps and configurations for the cloud",
  "The bias is of order one electron per row and drowned in the fluctuation of any one run; the expectation over all draws is not observable.",
  [D+"solver.py:generate_electrons", D+"solver.py:generate_point_cloud", D+"simulator.py:simulate"])
p("The beam spot: rho_sigma is the width of the radius, not of x and y",
  "KinematicsPipeline.sample places the vertex at the distance |normal(0, rho_sigma)| from the axis, in a uniform direction. The distance from the axis is that of the one normal number, whatever the other draws are. Averaged over all 2^53 directions and any list of normal numbers, the spot is centred (mean of x and of y zero), round (mean of x y zero, equal mean squares), and its mean square along x, and along y, is half of that of normal(0, rho_sigma): the width of the beam profile along an axis is rho_sigma over the square root of 2. Rounding changes each of these by a relative 2^-44 (and 2^-900 in distance) at most.",
  "all pipelines with a target and valid distributions, all other draws, every list of states of the normal source that makes finite numbers; libm sine and cosine accurate to 2^-50",
  "A test can only histogram a finite sample, with statistical errors; the exact moments over all draws are not observable.",
  [K+"pipeline.py:KinematicsPipeline.sample", K+"pipeline.py:KinematicsTargetMaterial"])
p("Isotropic emission: flat energy spectra and unbiased four-momentum",
  "At a given excitation and with PolarUniform(angle_min, angle_max), the laboratory energy of the ejectile is uniform between its values at angle_max and at angle_min, and that of the residual between the complements: out of the 2^53 draws, the share giving more than x is (hi - x)/(hi - lo) up to the rounding of the angle, for the exact kinematics and, with an added tolerance relative to the energy, for the rows that Reaction.calculate makes in binary64. For a decay with PolarUniform(0, pi) anywhere in the chain, averaged over all draws of its two angles with all other draws of the sample fixed, each component (px, py, pz, E) of the first product is the same share e/M of the decaying nucleus's and that of the second one the rest, up to k (E/M)(ea + 2^-45): the mean momentum points along the flight and nothing is preferred across it. The same holds for ejectile and residual of the reaction, whose parent is target and projectile together.",
  "all possible reactions and energies, all thresholds x, all limits of the angle whose cosines differ by 2^-900 or more; all decays that are allowed, all timelike parents, all pipelines with valid distributions, all other draws; libm cosine in [-1, 1], arccos accurate to ea",
  "A test sees a histogram with statistical errors; the shares are over 2^53 draws, the averages over 2^106 pairs of draws, and for every reaction.",
  [K+"reaction.py:Reaction.calculate", K+"reaction.py:Decay.calculate", K+"angle.py:PolarUniform.sample", K+"pipeline.py:KinematicsPipeline.sample"])
p("Energy resolution follows the Fano factor",
  "The standard deviation of the number of electrons that generate_electrons makes for a track, over independent symmetric draws of mean square v (1 for a standard normal generator), is sqrt(F v E/W), where E/W is the total energy lost over the W-value and F the Fano factor, up to (1/2 + 2^-6) sqrt(rows): the fluctuations of the rows are independent, so that cutting the track into more rows does not change the resolution beyond half an electron per row in quadrature, although each row gets its own draw and its own truncation. Without diffusion, the charge of the cloud of an event with any number of contained tracks has the gain times the standard deviation of all its tracks together, over all words of draws the generator delivers for them one after the other. The mean of that charge is the gain times E/W, less at most 1 + 2^-6 electrons per row and not more than 2^-6 electrons per row above, and for every s the charge is farther from the gain times E/W than this offset plus s times that width for at most one in s^2 of the words.",
  "all tracks with finite momenta and up to 2^36 electrons in total on which every row loses nothing or at least fano g^2 + 1 electrons' worth, all W-values, all Fano factors in [0, 1], every list of draws (|g| <= 16) that contains with each draw its negative, all words of such draws; all events, pad maps, generators and configurations for the cloud",
  "A standard deviation over all draws, for every track, is not observable in a finite sample.",
  [D+"solver.py:generate_electrons", D+"simulator.py:simulate"])
p("The stored z is unbiased to half a time bucket",
  "dict_to_points adds a uniform number to the whole time bucket of a pad and convert_to_spyral turns the sum into z. Averaged over all values of that draw, the z stored for a point is that of the middle of its bucket, and its standard deviation about the middle is one bucket's length over the square root of 12 (up to 2^-28 and 2^-27 buckets); so smearing makes up for the truncation of the drift time on average over positions, not for each: ionisation at z with exact arrival time t in bucket b is stored at z + (t - b - 1/2) buckets on average, at most half a bucket away. In the cloud every pad and bucket (up to 510) that is hit has its point for every value of its draw, with the same pad, charge and label, and the average holds whatever the other draws are.",
  "all detectors of 1 mm to 1 km with edges up to 2^20, all buckets up to 510, all z up to one detector length beyond its ends, all events, pad maps, other draws",
  "A test sees single draws; the average is over 2^53 values of one draw.",
  [D+"simulator.py:dict_to_points", D+"simulator.py:simulate", D+"writer.py:convert_to_spyral", D+"solver.py:generate_point_cloud"])
out=os.path.join(os.path.dirname(os.path.abspath(__file__)),"..","properties.jsonl")
with open(out,"w") as f:
    for x in P: f.write(json.dumps(x,ensure_ascii=False)+"\n")
print(len(P))
