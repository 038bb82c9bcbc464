# QED-Cascade: formal model and proofs — design

Subject: `robbiewatt1/QED-Cascade` (C++), read as text in `/repo`; nothing is built or run.
Properties: `properties.jsonl`. Claims: `MANIFEST.json`. Mutation log: `seeded/LOG.jsonl`, one line per wrong program that was tried. Machine-generated edits that made the model itself
ill-typed (53 of 323) tested nothing and are not in the log. One edit for C142 ran into the time limit before it had a result and is not in the log either.
C144 to C148 have not been tested against wrong programs: no edit made for them was run to a result.
Coq 8.16.1 development in `rocq/theories` (logical root `Verif`).

Sections: 1 how the code is modelled; 2 trusted base; 3 which parts of the code are modelled; 4 plan per property;
5 what the proofs found out about the code; 6 `Print Assumptions` for each theorem.

## 1. How the code is modelled

The code is transcribed function by function into total Gallina functions. Every definition
cites the file and lines it transcribes; simplifications are stated in that comment.

*Numbers.* Model functions are written once over an operations-only structure `Num T`
(arithmetic, comparisons, `sqrt`, `exp`, ... and decimal literals; no laws). Theorems come in
three strengths:

* **any arithmetic** - quantified over every `Num T`; no law of `+`, `<`, ... is used, so the theorem
  holds for IEEE doubles with rounding, infinities and NaN;
* **exact reals** - `T = R` (Coq standard library reals). Rounding is idealised away; such theorems
  say what the formulas compute, not how rounding perturbs them;
* **binary64** - `T = spec_float` with the standard library's executable IEEE-754 operations
  (`Coq.Floats.SpecFloat`, precision 53, emax 1024); `exp`, `log`, ... are arbitrary functions there. F64Facts.v shows that these
  operations are Flocq's correctly rounded ones; C42, C51, C79, C104 and C116-C120 are theorems about doubles.

*Failure.* A C++ function that may not return normally is modelled with the outcome type
`res A = Ok a | Exit code | Throw | UB reason | Fuel`: `std::exit`, uncaught exceptions and undefined behaviour
(out-of-bounds access, double free, null string, use of an uninitialised value) are different results.
Loops without an obvious bound take fuel and return `Fuel` when it is exhausted; termination theorems
say which fuel suffices, non-termination theorems that none does.

*Randomness.* The engine is an arbitrary state machine (`Engine`) delivering canonical uniforms and
standard normals; theorems quantify over all engines (with uniforms in `[0,1)` when needed).

*Concurrency.* OpenMP and MPI parts are small-step semantics over all interleavings.

*Files of a topic.* `X.v` is the model, `XFacts.v` proofs, `SpecX.v` notions of the specification that do not mention the model,
`PropsX.v` the theorems `Cnn_...` with `Print Assumptions` and a concrete case (`Cnn_case`). A claim of the kind "this does not hold"
is a theorem with the suffix `_refuted`.

## 2. Trusted base

* The Coq 8.16.1 kernel (and `vm_compute` where used for concrete examples).
* Axioms: no own axioms, and none of another library. `Print Assumptions` stands under every property theorem; section 6 lists the result for each.
  Only four occur, all of the standard library: `ClassicalDedekindReals.sig_forall_dec`, `ClassicalDedekindReals.sig_not_dec`,
  `FunctionalExtensionality.functional_extensionality_dep` (through `Coq.Reals`) and `Classical_Prop.classic`.
* The faithfulness of the transcription (reviewable through the citations).
* C++ semantics assumptions: `unsigned` is 32 bits, `size_t` 64 bits, `double` is IEEE binary64 rounded to nearest (no extended precision,
  no fused or reassociated operations, for the binary64 theorems), the "C" locale.
* The contracts of libraries, written at the point of use:
  `std::uniform_real_distribution` is `low + u (high - low)` (MCTools.v); C string and `strtol`/`strtod` readers, `fgets`, stream extraction of
  integers, numbers and words (Text.v, IniMem.v); `std::map`, `std::vector`, `new[]`/`delete[]` (out-of-bounds access and double free are `UB`);
  HDF5: a file is a tree of groups and data sets, creating what exists or opening what does not throws (Hdf5.v);
  MPI: blocking sends with any buffering, per-pair message order, barriers (Mpi.v); Geant4: the calls its kernel makes (Geant.v);
  TensorFlow: a loaded graph is a function (NetProcess.v); Eigen's factorisation of the covariance, `sinh`, `asinh` (Skewed.v).

## 3. Which parts of the code are modelled

| source (under `Source/`) | model | not modelled |
|---|---|---|
| Tools/ThreeVector.hh, ThreeMatrix.hh | Vec.v (constructors from components, access, operators, products, Mag, Norm, Unit, RotateToAxis, determinant, inverse), IniReader.v (reading) | copy and assignment, Print, stream output |
| Tools/Numerics.cpp | Numerics.v | - |
| Tools/MCTools.cpp | MCTools.v, Skewed.v (Geant build) | the generator itself (any engine) and the algorithms of std::normal/poisson distributions |
| Tools/UnitsSystem.* | Units.v | UnitsSystem::e, members never assigned |
| Particles/Particle.*, Lepton.*, Photon.* | Particle.v | - |
| Particles/ParticleList.* | ParticleList.v (with a heap of objects) | - |
| Particles/SourceGenerator.* | Source.v; SourceRace.v (several threads) | - |
| Physics/Fields/EMField/* | Fields.v | GaussianEMField.cpp 58-89 (SaveField, never called) |
| Physics/Fields/RadiationField/RadField.hh | - | unused interface |
| Physics/ParticlePushers/* | Pusher.v | - |
| Physics/Processes/* | Process.v; Tables.v (LoadTables); RunManager.v (life time of processes) | UnloadTables only as part of the destructor |
| Tables/*.table (the seven files that are read) | ShippedData.v (their text), Shipped.v (numbers of a text) | e_split_old.table, energy_split.table (never read) |
| example/example.ini | ExampleData.v (its text) | - |
| Exec/QEDCASC.cpp | Program.v (serial build), Sim.v (event loop), MpiProgram.v and Mpi.v (MPI build), Threads.v (OpenMP build, with atomic accesses), SourceRace.v and HistRace.v (OpenMP build, finer accesses) | console output |
| IO/Input/ini.*, INIReader.* | Ini.v (on texts), IniMem.v (on the character arrays), IniReader.v, Text.v | ini_parse_stream with user readers other than the two of the file |
| IO/Input/FileParser.* | FileParser.v; CheckFile.v (input-check.txt) | the formatting of numbers in the check file, what of it reaches the disk after exit() |
| IO/Output/HDF5Output.*, OutputManager.* | Hdf5.v, Output.v, OutBuffers.v (buffers and destructors), Mpi.v (MPI build) | HDF5Output::AddSubGroup (never called) |
| IO/Output/Histogram.* | Histogram.v; HistRace.v (several threads) | - |
| Geant/G4CascadeGenerator.*, G4StochasticEmission.* | Geant.v | Geant4's own kernel |
| Geant/G4CascadeTF.*, TensorflowGraph.* | Geant.v (one step), NetProcess.v (the object) | TensorFlow |
| Geant/G4QEDProcess.hh | - | empty interface |
| Python/RunManager.* | RunManager.v | - |
| example/QEDCascPy_example.py | PyExample.v (its calls) | the plots |
| Tests/BreitWheelerTest.cpp | Tests.v | - |
| the other files of Tests/ | - | five return 0 without doing anything, InputTest only constructs a FileParser, tfTest needs TensorFlow |
| Python/QEDCascPy-Bindings.cpp, test.cpp | - | bindings (their methods are the calls of RunManager.v); test.cpp uses classes that no longer exist |

Also outside the model: rounding in the exact-real theorems; console output; timing; memory exhaustion.

## 4. Plan per property

| id | property | model and proof |
|---|---|---|
| C01 | Vector product laws | Vec.v over an abstract number structure; algebraic laws by ring at R. |
| C02 | Unit vectors | Vec.v `vnorm`, `vdirection` (the discarded Norm() call is modelled as a no-op); field arithmetic with sqrt. |
| C03 | Matrix inverse | Vec.v `minverse`, `mdet`, `mmul`; field. |
| C04 | Rotation onto an axis | Vec.v `rotate_to_axis`; unit vectors n1,n2 with 1+cos <> 0 derived from the cut-off, then ring modulo |n|=1. |
| C05 | Rotation of antiparallel vectors | same; isometry argument for the diag(-1,1,-1) branch; counter-example for a general axis. |
| C06 | Table interpolation inside the table | Numerics.v `interpolate1d` over lists with explicit out-of-bounds outcome; induction on the scan. |
| C07 | Table interpolation outside the table | same; closed forms and refutation witnesses. |
| C08 | Interpolation never reads outside the table | same, any number structure (no law of comparison used). |
| C09 | Nearest bin | Numerics.v `array_index`; induction on the scan, sortedness. |
| C10 | Bracketing row selection | Numerics.v `closest_points` with unsigned wrap and exit outcome. |
| C11 | Simpson integration | Numerics.v `simpson`; induction over panels, comparison with the antiderivative of a cubic. |
| C12 | Seeding does not reach the generator | MCTools.v: world with two independent states (srand state, engine state); simulation relation over programs of draws. |
| C13 | Discrete sampling | MCTools.v `rand_discrete`; characterisation of the selected index. |
| C14 | Optical depth draws | Particle.v `init_optical_depth`; monotonicity of ln. |
| C15 | Unit system coherence | Units.v; field on the constants. |
| C16 | Lepton kinematics | Particle.v getters; sqrt algebra. |
| C17 | Photon kinematics | Particle.v. |
| C18 | Lepton built from an energy | Particle.v `lepton_from_energy`. |
| C19 | Track history is consistent | Particle.v operations; invariant by induction over operation lists. |
| C20 | Recorded times lag by one step | Pusher.v; induction over pushes. |
| C21 | Event list is a bounded sequence | ParticleList.v with heap of live objects; refinement to bounded list by induction. |
| C22 | Each sampled primary is used once | Source.v `generate_list`; induction over calls. |
| C23 | Source direction | Source.v + Vec.v; closed form of R applied to z. |
| C24 | Concurrent primaries | SourceRace.v small-step interleaving of the individual reads/writes of the counter; invariant for serial schedules, witnesses for bad ones. |
| C25 | Static field | Fields.v. |
| C26 | Plane wave shape | Fields.v; orthogonality of the rotation. |
| C27 | Plane wave polarisation | Fields.v. |
| C28 | Gaussian beam bound | Fields.v; bound of exp and cos. |
| C29 | Gaussian beam position and carrier | Fields.v. |
| C30 | Focused field cut-off and polarisation | Fields.v (series kept as in the code); cut-off branch, witness for polarisation. |
| C31 | Dead particles are frozen | Pusher.v, Process.v; any arithmetic. |
| C32 | Photons are ballistic at light speed | Pusher.v; induction over pushes. |
| C33 | Leptons never outrun light | Pusher.v; triangle inequality on the RK4 average of stage velocities of modulus < 1. |
| C34 | Free flight | Pusher.v. |
| C35 | Force power balance | Pusher.v. |
| C36 | Quantum parameter | Process.v `calculate_eta`. |
| C37 | Optical depth discipline | Process.v `stochastic_interact`. |
| C38 | Momentum balance of stochastic emission | same. |
| C39 | Photon sampling is inverted | Process.v + Sim.v; induction over the run. |
| C40 | Continuous emission leaves the emitter alone | Process.v `continuous_interact`. |
| C41 | Pair creation | Process.v `bw_interact`. |
| C42 | Pair below threshold | Process.v at binary64: NaN propagation. |
| C43 | Charge is conserved through a cascade | Sim.v event loop; invariant by induction over steps and over the growing list. |
| C44 | Charge is lost at capacity | Sim.v. |
| C45 | A time step always ends | Sim.v; measure = free capacity. |
| C46 | Number of time steps | Sim.v; archimedean argument; non-termination for every fuel. |
| C47 | Newborn particles run ahead | SimClock.v; invariant relating each clock to a generation number, by induction over visits and steps. |
| C48 | Particles keep their identity | Sim.v; prefix relation. |
| C49 | Histogram counting | Histogram.v; uses C09. |
| C50 | Histogram type is ignored | Histogram.v; any arithmetic. |
| C51 | One-bin histogram is always empty | Histogram.v at binary64. |
| C52 | Histogram merge | Histogram.v with ownership outcome. |
| C53 | Histogram normalisation | Histogram.v. |
| C54 | Every histogram is taken exactly once per event | Sim.v histogram schedule as trace. |
| C55 | Event table is a partition | Output.v `store_source`. |
| C56 | Output order does not depend on the schedule | Output.v slots; permutation of completion order. |
| C57 | Field grid layout | Output.v; arithmetic on indices. |
| C58 | Only one output source works | Hdf5.v + Output.v: file as set of paths, createDataSet on existing path throws. |
| C59 | Group creation test is inverted | Hdf5.v; contract of H5Gget_objinfo as an explicit hypothesis/definition. |
| C60 | Rescaled gamma | Output.v. |
| C61 | MPI gather | Mpi.v (processes as lists of sends and barriers, small-step semantics with every buffering choice), MpiFacts.v (weakest preconditions, sound for all schedules), MpiGather.v, PropsMpi.v. |
| C62 | MPI histogram reduction | Mpi.v, MpiHist.v (any-source receives, barrier), PropsMpi.v. |
| C63 | INI round trip | Ini.v: the character-level parser; IniReader.v; induction over rendered lines. |
| C64 | Keys are case-insensitive and do not collide | IniReader.v. |
| C65 | Comments and blank lines do not matter | Ini.v. |
| C66 | Repeated keys accumulate | IniReader.v. |
| C67 | Vector values | IniReader.v: filter and stream extraction. |
| C68 | Typed lookups fall back to the default | IniReader.v: strtol/strtod scanners. |
| C69 | Particle sections are read consecutively | FileParser.v, PropsFile.v; induction over the section counter, u32 wrap. |
| C70 | Mandatory settings | FileParser.v, PropsFile.v; the error state of the parser is erased by a simulation argument. |
| C71 | Python physics names | RunManager.v, PropsRun.v: simulation between managers equal up to synonymous names. |
| C72 | Python object life cycle | RunManager.v: pointer states null/live/dangling; induction over call sequences. |
| C73 | Python result tables | RunManager.v: per-thread buffers, small-step interleavings; RunFacts.v, PropsTables.v (induction over the events and over the schedule). |
| C74 | Command line | Program.v, PropsProgram.v; string arithmetic. |
| C75 | Geant hand-over | Geant.v: state machine; induction. |
| C76 | Focused beam position and carrier | Fields.v; the phase has no time argument, the amplitude is a positive factor. |
| C77 | Table access of the processes | ProcessSafe.v; any arithmetic, case analysis along the look-ups. |
| C78 | A whole event run is memory safe | SimFacts.v, SimTime.v: safety of one visit, then induction over the pass and over the steps. |
| C79 | Histogram normalisation without counts | PropsHist.v; binary64 (SpecFloat): 0/0 in every bin, induction over the list. |
| C80 | Histogram filling from several threads | HistRace.v small-step interleavings of loads and stores; invariant bounding the bin and all loaded values by the increments done, induction over the schedule. |
| C81 | Tracks can be written only once | OutFacts.v, OutFile.v, PropsOut.v; the file only grows (induction over calls), a dataset that exists cannot be created. |
| C82 | Track groups do not identify events | PropsOut.v; induction over the stored tracks. |
| C83 | List tracks exclude event tracks | PropsOut.v; invariant 'flag set and group absent' preserved by every call. |
| C84 | Histogram names must differ | PropsOut.v; growth of the file / induction over the histogram list. |
| C85 | MPI repeats event numbers | PropsMpi.v; list arithmetic on the gathered table of C61. |
| C86 | MPI writes no tracks | PropsMpi.v; from the whole-program lemma of C61. |
| C87 | Section names are case sensitive | PropsFile.v; any arithmetic. |
| C88 | Indented lines continue the previous setting | PropsIni.v; effect of one line on the parser state. |
| C89 | Conversion of settings to internal units | PropsFile.v; positivity of the reference units (MCFacts.v), field arithmetic. |
| C90 | Python runs leak their processes | PropsRun.v; induction over the call sequence with the count of created processes. |
| C91 | A run's output file | Program.v (main, serial build), ProgramFacts.v (refinement to the call sequences of Output.v by induction over events and sources), PropsProgram.v. |
| C92 | Input files with which no run completes | PropsProgram.v; C58, C59, C81 and C84 transported through the refinement of C91. |
| C93 | Geant free path | Geant.v free_paths (the switch is a member of the process); parity invariant by induction over the queries. |
| C94 | Geant energies | Geant.v post_step/emission_loop and shoot; invariants of the emission loop (identity kept; without field momentum kept) by induction on the fuel. |
| C95 | Geant process destructor | Geant.v owned objects with a heap of live addresses; invariant over ow_run, fresh addresses as object identities. |
| C96 | Neural-network photons | Geant.v tf_step with the graphs as values and the two samplers as arbitrary functions; induction over the photon loop. |
| C97 | Table files round trip | Tables.v models stream extraction and both LoadTables; the spec is the relation written (SpecLoad.v) between texts and lists of decimal numbers; induction over the numbers. |
| C98 | Truncated table files are accepted | Tables.v carries the contents of fresh memory as a parameter; induction over the stream after its end. |
| C99 | Emitted photons and the emitter's energy | Bounds on Interpolate1D for cumulative rows, convexity of the interpolation between two eta, on top of the loaded axes of C97. |
| C100 | Energy split of a pair | Interpolate1D below its first sample; energy of a lepton from its momentum. |
| C101 | Recording tracks has no influence on the physics | Relation: two states equal up to tracking flag and the four histories. Erasing the record commutes with every model function up to run_event (TrackFacts.v); the two output managers are related by a simulation relation on trees outside Particles/ParticleTrack (TrackFile.v). Theorems C101_event, C101_histograms, C101_file (PropsTrack.v), any arithmetic. |
| C102 | The Lorentz pusher is the classical Runge-Kutta method for the equation of motion | Pusher.v unfolded; the method is specified for an arbitrary right hand side on phase space (runge_kutta, trajectory), induction over the steps; the cubic case by induction with the quartic primitive. |
| C103 | What the Lorentz pusher keeps in a magnetic field | From the Runge-Kutta form of C102: every stage's force is orthogonal to n; the counterexample is computed with exact stage factors 5/4, 13/4 and a bound on the last two stages. |
| C104 | The clock of the event loop in double arithmetic | Sim.time_loop at Num_F64; the model's additions are Flocq's Bplus (F64Facts); relative error 2^-53 per addition summed by induction; the stopping point is the power of two whose half ulp exceeds the step. |
| C105 | Stochastic emission creates energy | From the momentum balance C38: E-p is positive and strictly falling in p. |
| C106 | Pair production loses momentum | From the case analysis of breit_wheeler_interact: e - sqrt(e^2-1) is in (0,1) for e > 1. |
| C107 | The multivariate samplers | Skewed.v models both samplers with lists; Eigen's factorisation is a function with the contract M M^T = covar, sinh and asinh are those of the reals. The specification is an abstract linear expectation with the moments of standardised uncorrelated numbers; mean and covariance of affine functions are computed from it. sinh(asinh x + s) by the addition theorem. |
| C108 | The Python module and the main program simulate the same events | Relates the two models RunManager.v and Program.v (through FileParser.v): the same world and source are built, observation by histograms does not change an event (induction over the time loop), tracking does not either (C101), the event chains are the same, and both outputs are functions of that chain (C73, C91). |
| C109 | Beams in closed form | PropsBeam.v: expansion as a table of terms (coefficient, powers, wave index) written independently of the code; the frame is the image of the axes under the inverse rotation (orthonormality by C04/RotationFacts); identity by field after the rotation lemmas. C109_plane, C109_gaussian, C109_gaussian_flux, C109_focused. |
| C110 | Which plane waves obey Maxwell's equations | PropsBeam.v: gradients defined by derivable_pt_lim of the components along the axes; waves of fixed direction have explicit gradients; uniqueness of limits for the converse. C110_gauss_laws, C110_maxwell. |
| C111 | Histories of single particles and lists in the output file | PropsSingle.v over Output.v: the four data sets of a history as a specification independent of the buffers; monotonicity of the file tree (OutFacts). C111_single, C111_single_completes, C111_single_untracked, C111_single_momenta_missing, C111_list, C111_properties. |
| C112 | Life of the network process | NetProcess.v: the object with possibly indeterminate members, graph files as arbitrary functions or failures, parameter files as texts read with the stream reader of Text.v; invariants by induction over call lists, simulation of test by step. |
| C113 | Deleting the output manager | OutBuffers.v follows the buffers as heap addresses through the calls of Output.v and models both destructors; an invariant (different live addresses, occupied slots = stored indices since the last InitSource) gives the balance. For the handle an invariant lists the groups in the file and the data set that each must contain, so that asking for one again throws before the call ends (PropsClose.v). C113_main combines it with C91 and C58. |
| C114 | The INI parser stays within its character arrays | IniMem.v transcribes the C functions on arrays with checked reads and writes (strlen, rstrip, lskip, find_chars_or_comment, strncpy0, the loop, fgets after the C standard). IniMemFacts.v: each function against its text version under an explicit description of the array (prefix, string, NUL, rest); one turn of the loop is a simulation (turn_ok); induction over the turns with the length of the rest of the file as measure. The sections bound is an invariant of the loop. |
| C115 | Parsing a string is parsing a file with the same characters | IniMem.v: ini_reader_string with its context (array, position, characters left) and ini_parse_string. Both readers satisfy the same contract (left s t in IniMemFacts.v), from which the result of the stream parser follows once for all readers. |
| C116 | Random draws in double precision | The arithmetic is the binary64 instance of the model (Num.v: operations of the standard library's SpecFloat, related to Flocq by F64Facts.v); F64Real.v gives every operation as a rounded real operation, F64Draw.v bounds the results. The logarithm is any function with the stated error. |
| C117 | Energies and speeds in double precision | F64Kin.v: error analysis with Flocq of the sum of squares (squares may be lost to underflow), the square root and the quotients. |
| C118 | Field-free motion in double precision | F64Zero.v: the force is a (signed) zero, all four stages are zeros, adding a zero is exact; induction over the steps. |
| C119 | Histogram counts are exact in double precision | F64Hist.v: differences of doubles have relative error 2^-53; integers up to 2^53 are doubles; induction over the values. |
| C120 | Interpolation error in double precision | F64Interp.v: error analysis of d0 + (q-x0)(d1-d0)/(x1-x0) with Flocq. |
| C121 | The units are the natural ones and the constants agree | Exact reals; pi from the arctangent series of the standard library (Machin). |
| C122 | The copy of the parameters in input-check.txt | CheckFile.v: the functions of FileParser.v with a writer for the stream; PropsCheck.v: the text as a list of lines, injectivity of lines, blocks and values by induction over the sources and histograms. |
| C123 | The shipped table files are read as they are written | The seven files are Coq strings (ShippedData.v, character by character); a scanner proved correct in ShippedFacts.v turns them into lists of decimals, and boolean checks on these lists are evaluated by the kernel (ShippedTables.v). C123 composes them with C97 (loading gives what is written). |
| C124 | Photon emission with the shipped tables | ShippedReal.v turns the checked decimals into inequalities between real numbers; PropsUse.v composes them with C37-C40, C77 and C99 (logarithm bounds by integer powers, ln 10 by a Taylor bound of exp). |
| C125 | Pair production with the shipped tables | The checks of ShippedTables.v compare the first two entries of every row (2 r0 <= r1 for the rows up to 80, r1 <= 2 r0 - 0.0006 from 81 on); composed with C41, C77 and C100 in PropsPairs.v. |
| C126 | Memory safety of the processes with the shipped tables | C123 gives the shape of the loaded tables, which is the hypothesis of C77 and C78 (PropsPairs.v). |
| C127 | A classical run with the shipped tables always completes | CompleteFacts.v: a run in which no process ends the program and no more particles than the capacity are made returns (induction over passes and fills); the continuous model stores nothing for a sample fraction as parsed and cannot exit with the shipped tables (C124, C126); the output calls succeed for distinct names (C55-C60) (PropsExample.v). |
| C128 | The example of the README | Input: evaluation of the parser model on the text of the file (ExampleData.v). Passes: the clock after k steps is k*dt (reals); in binary64 the clock is computed and compared for all 10000 steps by evaluation, lifted to the loop by induction. Run: C127 for this configuration. Documented library: the test before group creation is inverted (C59) (PropsExample.v). |
| C129 | The Python example | PyExample.v: the calls of the script. The session reduces to one beamOn; its serial loop returns or exits (pass_safe), the final particles are one electron and photons (run_only_photons), the continuous model stores at most one photon per pass (induction over passes); clock as in C128 (PropsPyExample.v). |
| C130 | A particle with a NaN momentum stays in the event as a ghost | binary64. NaN is absorbing for + - * / sqrt whatever the maths library does, and every comparison with it is false; the Lorentz factor carries it from one component to all. Run level: a general lemma on particle properties that pushes keep and that silence processes, lifted over the event loop. |
| C131 | Electrons at rest before the field arrives never emit | binary64. 0/0 in Norm makes the direction and eta NaN, the depth becomes NaN and NaN < 0 is false. First pass by induction over the list (particles before the index deaf, from the index on at rest), later steps by the general lemma of C130. |
| C132 | Runs with quantum emission and the shipped tables complete below eta 8.69 | PropsQuantum.v: the two lowest rows of the sampling table are compared entry by entry over the digits of the file (ShippedTables.apart), the extrapolated energy falls faster than eta below them (ShippedSlope.low_chi); an invariant that depends on the number of passes (BoundedRun.run_bound) with the bound on the momentum: the Lorentz force is at most A + B, an emission does not raise the momentum above max(p, 1). |
| C133 | The main program with quantum emission, and the README example with it | PropsQuantumRun.v on top of C132: the source gives momenta of size |energy| (primary_slower), the Gaussian beam is bounded by its amplitude (C28), CompleteFacts.events_ok_gen and PropsExample.simulation_ok (shared with C127) lift the completion of the events to the program and its file. |
| C134 | The test program for pair production makes no pair | Tests.v models the program with the functions of the model (plane field, photon, loading, Interact). chi = 1000 follows from C26/C27; the rate is the entry of row 802 of pairprod.table by C06; the exit from the range of log_chi.table (C125); the rest is a case distinction on the drawn depth. |
| C135 | The main program has no undefined behaviour on well-sized input | `ProgramSafe.v`: a predicate `sat r P` (the result is not UB, and if it is Ok it satisfies P) and a lemma for each function of the program, with invariants of the source, the histograms, the event buffers and the group handle (C113); `PropsSafe.v` puts them together. Undefined behaviour means the kinds that the model has: index out of range, null pointer, null string, uninitialised value, use after free, double free. |
| C136 | With more and more steps the simulated orbit converges to the solution of the equation of motion | Converge.v proves the error bound of the classical Runge-Kutta method for any bounded Lipschitz right-hand side, from the mean value theorem (local error) and a discrete Gronwall induction (global error). PropsConverge.v shows that the equation of motion is bounded and Lipschitz continuous when the fields are (the velocity is Lipschitz with constant 1/m), transfers the bound to the pusher through C102, proves the field condition for the static and plane wave fields, and solves the equation of motion in a static magnetic field. The proved rate is first order in dt; that the method is of fourth order for smooth fields is not proved. The Gaussian and focused fields are not covered: they are cut off or singular somewhere. |
| C137 | A run with MPI is the merger of serial runs | MpiProgram.v is the main program with USEMPI: every rank parses, sets up and simulates as in Program.v; the calls of the output manager are listed and handed to the communicating processes of Mpi.v. PropsMpiRun.v: the events of a rank are those of a serial run (relation events_of of C91), histograms are filled particle by particle, and the invariant of C61/C62 gives the contents of the file, which is rewritten in terms of the files of the serial runs (C91_output_file). Not modelled: the race of the ranks on input-check.txt. |
| C138 | Threaded runs are serial runs with rearranged random numbers | Threads.v: an event is a computation that stops at each shared access (a free monad over draws, counter steps, histogram fills, stores); `par` interleaves them in all ways. ThreadFacts.v: run alone it is the event of Program.v. ThreadSerial.v: an interleaving is explained by one trace per event; histogram fills commute in any arithmetic, stores of different events commute. ThreadReplay.v and ThreadProgram.v: the traces one after the other are a serial run of a generator that replays the rearranged numbers on sources with rearranged samples. Data races proper (torn accesses) are not modelled here; C24 and C80 are about finer accesses. Tracking is excluded because the order of the tracks in the file depends on the schedule. |
| C139 | Threads add no failures and no undefined behaviour | ThreadSafe.v: an invariant on interleavings (each running iteration is where it would be if it had run alone on numbers the generator can deliver, since neither the contents of histograms nor of tables, only their sizes, influence what it does), so a failing access is the failure of an iteration run alone. ThreadFail.v: the number of an iteration does not influence its outcome, so that this is the first iteration of a serial run on rearranged samples. PropsThreadSafe.v: outcomes, transfer, README example, undefined behaviour (with the sat lemmas of ProgramSafe.v); termination by accessibility of the access relation. |
| C140 | The Python module on several threads shows what a serial session with the same random numbers in another order shows | PyThreads.v models the parallel loop of beamOn as threads that run their share of the iterations and interleave at each random draw, step of the sample counter and store; PyThreadFacts.v shows by induction on the interleaving that every outcome consists of whole events with disjoint parts of the random numbers; PySerial.v replays these in a serial loop, PySession.v lifts this to sequences of calls, PySched.v constructs schedules. Theorems in PropsPyThreads.v. |
| C141 | Threaded runs with tracks are serial runs up to the numbering of the tracks | Threads.v as for C138. `ThreadTracks.v` shows that writing the tracks, the tables and the histograms runs in lockstep from two output managers whose tracks are permuted: the trees keep the same paths in the same order and differ only in the contents of track data sets; a second source after one with tracks cannot be written at all. `ThreadTrackFail.v` extends the lockstep to failing runs (`lock`: related results or the same failure). Specification: `renumbered`, in terms of look-ups in the two files. Not claimed: that the tracks are numbered as in some serial run (C82 shows that they need not be). |
| C142 | The tables of the output file balance: one primary per event, as many extra electrons as positrons, no more pairs than photons | LedgerFacts.v: three relations between the lists before and after a step, each lifted from single process calls and pushes to whole events with lift_run: even (electrons and positrons made in equal numbers, counting lost ones), roomy (particles are lost only by a full list) and paid (stored leptons are bounded by photons that are dead). PropsLedger.v: the spec reads rows of eight values back from the data sets of the file and counts them by event number; C142_events, C142_file and C142_no_pairs combine the event facts with C91_output_file; C142_threads follows from C141_transfers, C142_mpi from C137_serial_runs; C142_exact and C142_binary64 instantiate the arithmetic (536 event numbers are told apart in binary64 by a computed inverse). C142_case: a binary64 run from the text of an input file in which both photons turn into pairs. |
| C143 | In a static magnetic field the orbit error is of fourth order in the time step | Fourth.v writes the four stages in the plane of gyration in terms of the angle of the step and of the inverse energies of the stages, which are inverse square roots; bounds on these to second order show that the sums of the stages agree with sine and cosine up to the fifth order. A discrete Gronwall induction with the stability of the step (Converge.v) gives the global error. Strengthens C136 (first order, any regular field) for this field; fourth order in other fields is not proved. |
| C144 | Rounding errors of the pusher in a static field | Forward error analysis in F64Orbit.v: every operation of one Runge-Kutta step is bounded with the error of binary64 rounding (Flocq), velocity and force are within 20 and 40 F units of 2^-53 of the exact ones, one push is within 2^-43 M of the exact push of the same doubles. The exact push is Lipschitz (step_stable of C136), so the errors accumulate as a geometric series; an induction over the pushes carries the bound on the size of the numbers. C144_stalled is an induction whose step is one evaluation of the push in binary64. |
| C145 | The rounding errors of free flight in double precision | The pusher of Pusher.v over binary64. C145_photon: the pusher leaves the momentum of a massless particle alone, one step of the position is bounded with the one-step lemmas of F64Orbit.v (C144), and the bound is summed by induction on the number of steps. C145_lepton: the zero field leaves the values of the momentum alone, then the same induction. C145_stalled: the photon at 2^53 by computation of one step and induction. C145_case: 128 pushes of a photon and of an electron with the step 1/128. |
| C146 | The counts of histograms in double precision, serial and with MPI | C146_serial: the invariant 'every value is a double holding a whole number in [0, 2^53]' holds for new histograms and is kept by every increment in AppParticle and Fill (2^53 + 1 rounds to 2^53); it is carried through the events by `filled` (C61) to the file (C91). It does not say how many particles were counted, which is C49 and C119. C146_merge: sums of whole numbers that stay within 2^53 are exact, so the fold over any permutation of the ranks in `merges` (C137) gives the sum. C146_mpi combines them with C137_serial_runs. C146_order shows the bound is needed. C146_case: three ranks with two photons each. |
| C147 | Radiation reaction along an electric field | Pusher.v over the reals. On the line the invariant field strength is |e| whatever the momentum, so the three forces are constant (line_force, from the closed forms behind C35); a Runge-Kutta step with a constant force is exact for the momentum and Simpson's rule for the position (line_step); induction on the number of steps. C147_position: every step differs from the exact motion (C147_motion: its derivative is the speed) by at most dt times the change of the speed, since both the Simpson mean and the true mean lie between the two speeds; these bounds telescope. C147_loss compares the models, C147_braked is the sign of c. C147_case, C147_braked_case: a positron in the fields 3 and 1000. |
| C148 | A run without field is free flight from the first list to the last | Sim.v loop over Num_R. In zero field eta = 0, so the table is not read and the depth falls by zero; pair production skips leptons. Each process returns the particle, list and generator it was given; each push is free flight (C34). Induction over the particle loop, over the steps and over the clock. Continuous emission is left out: it draws a number for every visit and divides by eta. |
| C149 | Moving leptons without field in double precision: every pusher, every process, whole runs | Num_F64 with an abstract maths library. eta is a square root of zeros times gamma (C117 bounds gamma, beta and the direction), so zero; the depth falls by zero. In continuous emission chi is zero or NaN, and divided by eta = 0 it is NaN, which fails the comparison. The forces vanish at the momentum, and zero added in every Runge-Kutta stage keeps its value. Whole runs by the invariant lemmas of NanRun.v. |

## 5. What the proofs found out about the code

Behaviour proved of the model (claim in brackets) that its authors probably did not intend.

*Physics.* Stochastic emission creates energy (C105); pair production loses momentum (C106); a sampled photon energy between |p| and gamma
reverses the emitter (C38), and with more chi than eta values in the tables it can exceed gamma (C99); pair members below the rest energy get NaN momenta (C42),
so do leptons at rest under the pushers with radiation reaction, and they stay in the event as ghosts (C130); electrons at rest before the field arrives never
emit (C131);
energy fractions can be negative, which creates energy (C100); plane waves obey Maxwell's equations for one polarisation only (C110); the polarisation
of the focused beam is not a rotation (C30); sources fly along (-dx,-dy,dz) (C23); newborn particles run ahead of the clock (C47); recorded times lag by one step (C20); charge is
lost when the list is full (C44); photon sampling is the wrong way round, so that with the default nothing is stored (C39).

*Random numbers.* SetSeed does not reach the generator (C12); RandDiscrete never returns the first entry (C13), in double precision also index 0 for
tiny totals and RandDouble the excluded upper limit (C116); RandSinhArcsinhNd adds the mean twice (C107).

*Program.* The time loop does not end when the clock stops increasing (C46, C104); the source's counter is shared by threads (C24), likewise
histogram bins (C80).

*Output.* Only one output source works (C58); the test before group creation is inverted (C59); tracks can be written only once (C81), their groups do not
identify events (C82); equal histogram names throw (C84); the histogram type is ignored (C50); one-bin histograms stay empty (C51); normalising an empty one gives
NaN (C79); with MPI event numbers repeat (C85) and no tracks are written (C86); ListProperties leaks its buffer, and some completed outputs end in
a double free in the destructor (C113, C135).

*Input.* Section names are case sensitive although keys are not (C87); indented lines continue the previous setting (C88); truncated table files are
accepted and leave uninitialised entries (C98); a file with a NUL byte is read differently from the same string (C115).

*Python module.* `classical` is rejected and `clasical` runs the quantum model (C71); a failed set-up after a run leads to a double free (C72); processes leak (C90); without
OpenMP the example script runs nothing and plots empty tables (C129).

*Geant4.* Whether the laser process acts alternates from query to query (C93); destroying it is undefined behaviour (C95); photons of the network process use the electron's sample (C96); destroying the
network process is undefined too, and its first mixture component is never used (C112).

*Data.* With the tables that come with the program: the program ends itself when an electron of eta above 8.7 is to emit (C124), or a photon of chi above 885 to
make a pair (C125; the only live test of pair production, BreitWheelerTest, has chi = 1000 and so never makes a pair, C134); the emission rate at eta = 10 is taken from the first entry of its table, more than twice the last one (C124); the classical model multiplies photon
energies by (eta/e^-5)^2 where the table starts at 10^-5, and so makes photons of more than the emitter's energy from eta = 1/5 on (C124); for chi between 110 and 883
a draw below 0.0006 gives an energy fraction below 0 and creates energy (C125); the fractions end with 1.0000000000000007. Below eta = 10^-5 the sampling table is extrapolated; no photon gets more energy than its emitter there (C132). Only observed, not proved: the entries 10, 25, 29
and 46 of `hsokolov.table` break its monotonicity; `e_split_old.table` and `energy_split.table` are not used.

## 6. `Print Assumptions` for each theorem of the manifest

N = `ClassicalDedekindReals.sig_not_dec`, F = `ClassicalDedekindReals.sig_forall_dec`, E = `FunctionalExtensionality.functional_extensionality_dep`, C = `Classical_Prop.classic`.

**closed under the global context** (234): `C08_interpolation_memory_safe`, `C08_interpolation_short_table_ub`, `C09_index_in_range`, `C09_index_empty_ub`, `C11_simpson_short_ub`, `C12_seed_has_no_effect`, `C19_track_consistent`, `C19_history_is_the_updates`, `C20_history_lags`, `C21_list_is_bounded_sequence`, `C21_list_destruction`, `C21_duplicate_is_double_free`, `C22_each_primary_once`, `C22_unknown_species`, `C24_no_overrun`, `C24_serial_calls`, `C24_duplicate_primary`, `C24_lost_increment`, `C24_torn_primary`, `C24_extra_call_overruns`, `C25_static_field`, `C31_dead_not_pushed`, `C31_dead_ignored`, `C31_other_species_ignored`, `C38_emitter_frame`, `C39_photon_needs_large_draw`, `C40_emitter_untouched`, `C41_pair_or_nothing`, `C43_charges_come_in_pairs`, `C44_electron_lost`, `C44_pair_lost`, `C45_pass_ends`, `C45_each_once`, `C45_at_most_capacity`, `C47_born_at_parents_clock`, `C48_identity`, `C48_identity_between_steps`, `C49_entries`, `C49_without_bins`, `C50_type_ignored`, `C50_energy_only`, `C51_one_bin_empty`, `C52_argument_gone`, `C54_each_histogram_once`, `C54_schedule_meaning`, `C55_final_rows`, `C55_one_row_each`, `C55_primary_row`, `C55_names`, `C56_tables`, `C56_any_order`, `C57_layout`, `C57_bijection`, `C57_beyond`, `C58_second_source_fails`, `C58_program`, `C58_throws`, `C59_add_group`, `C59_file_stays_empty`, `C59_program`, `C60_list_tracks`, `C61_gather`, `C62_some_order`, `C63_parse_written`, `C63_round_trip`, `C64_lookup_ignores_case`, `C64_file_ignores_case`, `C64_names_have_no_separator`, `C64_no_collision`, `C65_comment_line_ignored`, `C65_long_comment_tail`, `C66_repeated_keys_accumulate`, `C66_numbers_use_first`, `C67_spaced_numbers`, `C67_missing_is_zero`, `C67_commas_join_digits`, `C67_capital_exponent_dropped`, `C67_total`, `C68_integer_default`, `C68_integer_values`, `C68_real_default`, `C68_real_values`, `C68_booleans`, `C68_strings`, `C69_numbered_sections`, `C69_negative_number`, `C70_reader_total`, `C70_mandatory_settings`, `C70_accepted_files`, `C70_same_settings_same_parameters`, `C70_junk_line_ignored`, `C71_synonyms`, `C71_model_of_name`, `C71_rejected_names`, `C72_double_free`, `C72_serial_build`, `C73_serial_tables`, `C73_any_assignment`, `C73_events_sound`, `C74_argument_of_a_run`, `C74_input_file`, `C74_refused`, `C75_handover`, `C75_only_the_events`, `C75_same_events`, `C77_no_undefined_access`, `C79_nothing_in_range`, `C79_garbage_counter`, `C80_bounds`, `C80_serial_exact`, `C80_half_lost`, `C81_tracks_twice`, `C81_program`, `C82_ids_not_written`, `C82_schedule_dependent`, `C83_list_then_tracks`, `C84_same_name_twice`, `C84_distinct_names`, `C85_event_numbers`, `C86_no_tracks`, `C87_exact_section_names`, `C88_indented_line_is_continuation`, `C90_processes_leak`, `C91_run_iff`, `C91_output_file`, `C92_two_output_sources`, `C92_tracking_two_sources`, `C92_two_histograms`, `C92_documented_library`, `C93_every_second_query`, `C93_second_track_never`, `C95_destructor_undefined`, `C96_photons_are_copies`, `C96_photon_component`, `C97_emission_tables`, `C97_pair_tables`, `C97_any_contents`, `C97_failures`, `C98_short_rate_table`, `C98_short_photon_table`, `C101_event`, `C101_histograms`, `C101_file`, `C108_same_simulation`, `C108_classical_name`, `C111_single`, `C111_single_completes`, `C111_single_untracked`, `C111_single_momenta_missing`, `C111_list`, `C111_properties`, `C112_destructor`, `C112_not_loaded`, `C112_parameters_missing`, `C112_step`, `C112_test`, `C112_test_throws`, `C112_sessions`, `C113_buffers`, `C113_closes`, `C113_documented`, `C113_main`, `C113_always_deletable_refuted`, `C114_within_arrays`, `C114_written`, `C114_one_less_refuted`, `C114_sections_cut`, `C115_string_is_file`, `C115_written`, `C115_unterminated`, `C115_nul_in_text_refuted`, `C117_below_light_refuted`, `C118_bits_refuted`, `C119_saturates`, `C120_between_refuted`, `C122_no_influence`, `C122_contents`, `C122_tells`, `C122_refused`, `C122_complete_refuted`, `C123_emission_tables`, `C123_pair_tables`, `C126_process_safe`, `C128_input`, `C128_event_double`, `C128_documented_library`, `C129_without_openmp`, `C129_event_double`, `C130_push`, `C130_process`, `C130_run`, `C130_run_creates_nothing`, `C130_histogram`, `C131_deaf`, `C133_input`, `C134_outcomes`, `C135_no_undefined_behaviour`, `C135_small_runs`, `C135_shipped_tables`, `C135_names_needed`, `C137_merge`, `C137_serial_runs`, `C137_one_rank`, `C138_serialises`, `C138_transfers`, `C138_serial_schedule`, `C138_any_order`, `C138_one_file_refuted`, `C139_schedules_end`, `C139_schedules_go_on`, `C139_outcomes`, `C139_completes`, `C139_no_undefined_behaviour`, `C139_shipped_tables`, `C140_serialises`, `C140_transfers`, `C140_events`, `C140_serial_schedule`, `C140_single_thread`, `C140_any_order`, `C140_schedules_end`, `C140_schedules_go_on`, `C140_one_result_refuted`, `C141_tracked`, `C141_transfers`, `C141_tables`, `C141_outcomes`, `C141_completes`, `C142_events`, `C142_file`, `C142_no_pairs`, `C142_threads`, `C142_mpi`, `C142_binary64`.

**C, E, F, N** (220): `C01_operations_exact`, `C01_elementwise`, `C02_norm_is_unit`, `C02_direction_is_displacement`, `C02_direction_unit_refuted`, `C03_inverse_two_sided`, `C03_det_mul_apply`, `C03_identity_needs_zero`, `C03_zero`, `C04_rotate_to_axis`, `C05_antiparallel_z`, `C05_antiparallel_general_refuted`, `C06_interpolation_inside`, `C06_interpolation_nodes`, `C07_interpolation_below`, `C07_interpolation_above_is_offset`, `C07_interpolation_jump`, `C07_interpolation_last_uses_first_segment`, `C07_interpolation_refuted`, `C09_nearest_bin`, `C10_closest_points`, `C10_closest_points_short_ub`, `C11_simpson_exact_for_cubics`, `C11_simpson_even_points`, `C11_simpson_even_refuted`, `C11_simpson_two_points`, `C12_reproducible_seed_refuted`, `C13_discrete_index`, `C13_discrete_intervals`, `C13_discrete_degenerate`, `C14_depth_nonneg`, `C14_depth_exponential_law`, `C14_depth_increasing`, `C15_units_coherent`, `C15_units_round_trip`, `C15_unit_names`, `C16_lepton_kinematics`, `C17_photon_getters`, `C17_photon_from_energy`, `C18_lepton_from_energy`, `C20_photon_record`, `C23_source_direction`, `C23_direction_right_only_along_z`, `C26_plane_wave_shape`, `C26_plane_wave_strength`, `C26_plane_wave_travels`, `C27_plane_wave_polarisation`, `C27_perpendicular_iff`, `C27_backward_flux`, `C28_gauss_bound`, `C29_gauss_ignores_position`, `C29_gauss_no_carrier`, `C30_cut_off`, `C30_non_positive_strength`, `C30_polarisation_changes_strength`, `C30_polarisation_is_rotation_refuted`, `C32_photon_ballistic`, `C32_light_speed`, `C33_below_light_speed`, `C33_never_outruns_light`, `C34_free_flight`, `C34_uniform_electric_field`, `C35_lorentz_force`, `C35_landau_power`, `C35_modified_between`, `C36_quantum_parameter`, `C36_zero_without_field`, `C36_linear_in_field`, `C36_longitudinal_field`, `C37_depth_discipline`, `C37_emission_when_depth_runs_out`, `C38_momentum_balance`, `C39_default_fraction_no_photon`, `C39_no_photon_in_a_run`, `C40_continuous_photon`, `C41_pair_kinematics`, `C42_pair_below_threshold`, `C43_charge_conserved`, `C43_live_charge_conserved`, `C44_charge_off_by_one`, `C46_number_of_steps`, `C46_no_step`, `C46_endless`, `C47_clock_by_generation`, `C47_never_behind`, `C49_one_particle`, `C49_counting`, `C49_run_adds_named`, `C49_run_histograms`, `C49_axis`, `C52_merge_one`, `C52_entries`, `C52_merge_many`, `C52_any_order`, `C52_self_merge`, `C53_fill_normalises`, `C53_two_portions`, `C60_gamma`, `C62_sum`, `C76_no_field_at_focus`, `C76_focused_ignores_position`, `C76_focused_no_carrier`, `C77_exit_beyond_table`, `C77_pair_exit_beyond_table`, `C78_run_memory_safe`, `C89_settings_in_SI`, `C94_never_slow`, `C94_energy_without_field`, `C94_gun_energy`, `C97_axes`, `C98_reproducible_refuted`, `C99_photon_parameter`, `C99_photon_energy`, `C99_wide_table`, `C99_photon_energy_refuted`, `C100_split_inside`, `C100_split_negative`, `C100_pair_energy`, `C100_energy_conservation_refuted`, `C102_runge_kutta`, `C102_impulse_step`, `C102_impulse_exact`, `C103_along_field`, `C103_energy_refuted`, `C104_number_of_steps`, `C104_ends`, `C104_endless`, `C105_emission_creates_energy`, `C106_pair_loses_momentum`, `C107_normal`, `C107_component`, `C107_without_skew`, `C107_requested_refuted`, `C109_plane`, `C109_gaussian`, `C109_gaussian_flux`, `C109_focused`, `C110_gauss_laws`, `C110_maxwell`, `C112_lag`, `C112_first_component_unused`, `C112_load_is_atomic_refuted`, `C116_from_zero`, `C116_range`, `C116_depth`, `C116_discrete`, `C117_lepton`, `C117_gamma_error`, `C117_velocity`, `C117_direction`, `C117_photon_energy`, `C118_momentum_constant`, `C119_exact_counts`, `C120_error`, `C121_constants_consistent`, `C121_natural_units`, `C121_geant_units`, `C124_sampling_table`, `C124_photon_energy`, `C124_range`, `C124_emission_number`, `C124_last_entry_refuted`, `C124_continuous_energy`, `C124_classical_excess`, `C124_classical_energy_refuted`, `C125_fraction`, `C125_negative_fraction`, `C125_range`, `C125_pair_energy`, `C125_pair_number`, `C125_energy_conservation_refuted`, `C126_run_safe`, `C127_classical_run`, `C128_event`, `C128_run`, `C129_event`, `C129_with_openmp`, `C129_one_thread`, `C131_run`, `C132_photon_energy`, `C132_momentum_after_emission`, `C132_run_completes`, `C133_quantum_run`, `C133_example_run`, `C134_no_pair`, `C134_draws`, `C136_error`, `C136_limit`, `C136_plane_regular`, `C136_gyration`, `C136_momentum_drift`, `C137_sum`, `C139_example`, `C139_quantum_example`, `C140_script`, `C142_exact`, `C143_one_push`, `C143_gyration`, `C143_fourth_order`, `C143_momentum_drift`, `C144_rounding`, `C144_orbit`, `C144_gyration`, `C144_stalled`, `C145_photon`, `C145_lepton`, `C146_merge`, `C146_serial`, `C146_mpi`, `C147_line`, `C147_position`, `C147_loss`, `C147_braked`, `C148_steps`, `C148_run`, `C148_place`, `C149_eta`, `C149_push`, `C149_process`, `C149_run`.

**E, F** (6): `C116_half_open_refuted`, `C116_tiny_total_refuted`, `C130_radiation_reaction_at_rest`, `C131_at_rest`, `C145_stalled`, `C146_order`.

**E, F, N** (3): `C01_vector_product_laws`, `C136_static_regular`, `C147_motion`.
