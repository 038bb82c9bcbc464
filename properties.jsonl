{"id": "C01", "title": "Vector product laws", "statement": "For ThreeVectors a, b: a.Cross(b) is perpendicular to both a and b, swapping the operands negates it, |a x b|^2 + (a.Dot(b))^2 = Mag2(a) Mag2(b), and Mag() squared equals Mag2(). The element-wise product and quotient and the operators between a vector and a number act on each component; a number added or subtracted stands for three equal components.", "quantifier": "for all pairs of vectors (exact real arithmetic)", "why_tests_cant": "An identity over a six-dimensional continuum; tests only sample points.", "anchors": ["Source/Tools/ThreeVector.hh: ThreeVector::Cross, Dot, Mag, Mag2"]}
{"id": "C02", "title": "Unit vectors", "statement": "Norm() of every non-zero vector is a vector of length exactly 1 that is a positive multiple of the input; Direction(a,b), documented as a unit vector, returns the plain displacement instead, so its length is the distance between the points and it is a unit vector only if that distance is 1.", "quantifier": "for all non-zero vectors / all pairs of points (exact real arithmetic)", "why_tests_cant": "Universal over the continuum; the length defect is silent and only visible for particular distances.", "anchors": ["Source/Tools/ThreeVector.hh: ThreeVector::Norm, ThreeVector::Direction"]}
{"id": "C03", "title": "Matrix inverse", "statement": "For every 3x3 matrix with non-zero Determinant(), Inverse() is a two-sided inverse: M*M.Inverse() and M.Inverse()*M are the identity; Determinant is multiplicative and matrix-vector product is compatible with matrix-matrix product.", "quantifier": "for all 3x3 matrices with non-zero determinant (exact real arithmetic)", "why_tests_cant": "Nine free real parameters; one wrong sign in one cofactor can be invisible on the symmetric matrices used in tests.", "anchors": ["Source/Tools/ThreeMatrix.hh: ThreeMatrix::Inverse, Determinant, operator*", "Source/Tools/ThreeVector.hh: operator*(ThreeMatrix,ThreeVector)"]}
{"id": "C04", "title": "Rotation onto an axis", "statement": "For every non-zero v and axis a whose unit vectors are not within the antiparallel cut-off (|v^+a^|^2 > 1e-10), v.RotateToAxis(a) is a proper rotation (orthogonal, determinant 1) that carries v onto |v| times the unit vector of a, and fixes every vector perpendicular to both.", "quantifier": "for all vectors v and axes a outside the cut-off (exact real arithmetic)", "why_tests_cant": "Two continuous directions; orthogonality must hold for all of them, including nearly antiparallel ones where the formula is ill conditioned.", "anchors": ["Source/Tools/ThreeVector.hh: ThreeVector::RotateToAxis"]}
{"id": "C05", "title": "Rotation of antiparallel vectors", "statement": "When v is inside the antiparallel cut-off of the z axis, v.RotateToAxis(z) is still a proper rotation and carries the unit vector of v to within 1e-5 of z. For other axes the antiparallel branch does not carry v onto the axis (for v=(0,1,0), axis (0,-1,0) it returns v itself).", "quantifier": "for all v within the cut-off of the z axis; a witness for general axes", "why_tests_cant": "The branch is entered on a set of directions of measure almost zero; tests at random directions never reach it.", "anchors": ["Source/Tools/ThreeVector.hh: ThreeVector::RotateToAxis"]}
{"id": "C06", "title": "Table interpolation inside the table", "statement": "For a strictly increasing abscissa and a query q with first <= q < last, Interpolate1D returns the point at q of the straight segment joining the two table entries that bracket q; in particular it returns the tabulated value at every node except the last and always lies between the two bracketing values.", "quantifier": "for all table sizes >= 2, all strictly increasing tables and all in-range queries (exact real arithmetic)", "why_tests_cant": "All table lengths and contents; bracket selection has an off-by-one edge at each node.", "anchors": ["Source/Tools/Numerics.cpp: Numerics::Interpolate1D"]}
{"id": "C07", "title": "Table interpolation outside the table", "statement": "Below the table Interpolate1D is the linear extrapolation of the first segment. Above the table it is not: it equals the linear extrapolation of the last segment plus one full last increment, so the function jumps by (last - last-but-one value) at the end. A query exactly equal to the last abscissa is answered from the first segment.", "quantifier": "for all strictly increasing tables and all out-of-range queries (exact real arithmetic)", "why_tests_cant": "Defects at the boundary of the domain for every table; a test has to hit the exact end point or know the intended extrapolation.", "anchors": ["Source/Tools/Numerics.cpp: Numerics::Interpolate1D"]}
{"id": "C08", "title": "Interpolation never reads outside the table", "statement": "For table length >= 2, Interpolate1D reads only existing entries whatever the table contents and the query are (unsorted tables, infinities and NaN included); with fewer than two entries it reads beyond the array (undefined behaviour).", "quantifier": "for all lengths, all table contents and queries, for any behaviour of floating-point comparison", "why_tests_cant": "Memory safety over all inputs including NaN; tests only show absence of a crash on sampled inputs.", "anchors": ["Source/Tools/Numerics.cpp: Numerics::Interpolate1D"]}
{"id": "C09", "title": "Nearest bin", "statement": "For strictly increasing sample points, ArrayIndex returns an in-range index whose sample point is at least as near to the query as every other sample point; an exact tie goes to the upper one. For any contents (NaN included) the result is a valid index when the array is non-empty; an empty array is undefined behaviour.", "quantifier": "for all arrays and queries (order part in exact real arithmetic, range part for any comparison behaviour)", "why_tests_cant": "Every length, content and query; unsigned wrap of size-1 for the empty array is not reachable by ordinary tests.", "anchors": ["Source/Tools/Numerics.cpp: Numerics::ArrayIndex"]}
{"id": "C10", "title": "Bracketing row selection", "statement": "For strictly increasing sample points of length n >= 2, ClosestPoints either returns index i and fraction f with q = s[i] + f (s[i+1]-s[i]), i+1 <= n-2, and 0 < f <= 1 whenever q > s[0] (f <= 0 when q <= s[0]), or terminates the program with code -1; for n >= 3 it terminates exactly when q > s[n-2], i.e. queries inside the last table interval are refused as out of range; for n = 2 it always terminates; for n < 2 it reads out of bounds.", "quantifier": "for all n >= 2, increasing tables and queries (exact real arithmetic)", "why_tests_cant": "The refusal of the last interval is only visible for parameters at the very top of the tabulated range.", "anchors": ["Source/Tools/Numerics.cpp: Numerics::ClosestPoints"]}
{"id": "C11", "title": "Simpson integration", "statement": "On a uniform axis with an odd number (>= 3) of points SimpsonsRule integrates every polynomial of degree at most three exactly; with an even number of points it is wrong already for constants; with an axis of fewer than two points it reads out of bounds.", "quantifier": "for all odd sizes, all step sizes and origins and all cubic polynomials (exact real arithmetic)", "why_tests_cant": "Unbounded size and coefficients; a wrong weight at one index changes only some integrands.", "anchors": ["Source/Tools/Numerics.cpp: Numerics::SimpsonsRule"]}
{"id": "C12", "title": "Seeding does not reach the generator", "statement": "SetSeed has no influence on anything drawn by RandDouble, RandDiscrete, SampleNorm, SampleUniform: for every program of draws, inserting SetSeed calls with any seeds changes no drawn value.", "quantifier": "for all sequences of draws, all positions and values of SetSeed calls and all generator states", "why_tests_cant": "Reproducibility is a relation between two whole executions; randomness hides it from a single-run test.", "anchors": ["Source/Tools/MCTools.cpp: MCTools::SetSeed, RandDouble, SampleNorm, SampleUniform", "Source/Tools/MCTools.hh: static generator"]}
{"id": "C13", "title": "Discrete sampling", "statement": "For a non-negative weight table of length n >= 2, RandDiscrete returns an index that is always >= 1 and < n: outcome 0 is never produced, and all probability mass of outcome 0 is given to outcome 1. For i >= 2 the set of draws that yields i is exactly the half-open interval between consecutive partial sums.", "quantifier": "for all weight tables and all uniform draws (exact real arithmetic)", "why_tests_cant": "A statistical test has to notice one missing class; the exact law is a statement over all draws.", "anchors": ["Source/Tools/MCTools.cpp: MCTools::RandDiscrete"]}
{"id": "C14", "title": "Optical depth draws", "statement": "Every optical depth assigned at creation of a particle or after an emission is finite and non-negative, and larger uniform draws give larger depths.", "quantifier": "for all uniform draws in [0,1) (exact real arithmetic)", "why_tests_cant": "Continuum of draws; the dangerous point (draw 1) has probability almost zero.", "anchors": ["Source/Particles/Particle.cpp: Particle::InitOpticalDepth", "Source/Tools/MCTools.cpp: RandDouble"]}
{"id": "C15", "title": "Unit system coherence", "statement": "The reference units are mutually coherent: length = c time, E field = c B field, energy = c momentum, momentum = mass c, and charge times field times time equals momentum, so that in reference units the equation of motion has unit coefficients; converting any quantity to reference units and back is the identity. Any unit-system name other than SI/si ends the program with code 1.", "quantifier": "for all quantities and all names (exact real arithmetic on the constants in the source)", "why_tests_cant": "A relation between eight derived constants and all inputs, not a value at one input.", "anchors": ["Source/Tools/UnitsSystem.cpp: UnitsSystem::UnitsSystem", "Source/Tools/UnitsSystem.hh: UnitsSystem::Constants"]}
{"id": "C16", "title": "Lepton kinematics", "statement": "For every momentum and positive mass: GetGamma >= 1, GetEnergy^2 = mass^2 + |p|^2, 0 <= GetBeta < 1, and beta*energy = |p|.", "quantifier": "for all momenta and masses > 0 (exact real arithmetic)", "why_tests_cant": "Continuum of momenta.", "anchors": ["Source/Particles/Lepton.cpp: Lepton::GetGamma, GetEnergy, GetBeta"]}
{"id": "C17", "title": "Photon kinematics", "statement": "A photon's energy and gamma are |p|, its beta is 1, its charge and mass are 0; a photon built from energy E > 0 and a non-zero direction reports exactly energy E and flies along that direction.", "quantifier": "for all energies > 0 and non-zero directions (exact real arithmetic)", "why_tests_cant": "Continuum of energies and directions.", "anchors": ["Source/Particles/Photon.cpp: Photon constructors, GetEnergy, GetGamma, GetBeta"]}
{"id": "C18", "title": "Lepton built from an energy", "statement": "A lepton built from energy E and direction d has momentum of length |E| along d (against d if E < 0), so its reported energy is sqrt(mass^2+E^2), which is never E for positive mass.", "quantifier": "for all energies, masses > 0 and non-zero directions (exact real arithmetic)", "why_tests_cant": "The error is relative 1/(2E^2): tests at GeV energies with tolerances cannot see it.", "anchors": ["Source/Particles/Lepton.cpp: Lepton::Lepton(double mass,double charge,double energy,...)"]}
{"id": "C19", "title": "Track history is consistent", "statement": "After any sequence of updates, kills and clock advances, the four recorded histories (position, momentum, time, gamma) have the same length; it is zero if tracking is off, otherwise exactly the number of track updates made; the last entries are the current position and momentum, and each recorded gamma is the gamma of the momentum recorded with it.", "quantifier": "for all operation sequences on a particle, for any arithmetic", "why_tests_cant": "All histories of calls; a missing push in one branch shows only for particular sequences.", "anchors": ["Source/Particles/Particle.cpp: Particle::UpdateTrack, UpdateTime, UpdateOpticalDepth", "Source/Particles/Particle.hh: Particle::Kill, GetPosHist, GetMomHist, GetTimeHist, GetGammaHist"]}
{"id": "C20", "title": "Recorded times lag by one step", "statement": "A tracked photon pushed n times with step dt from time t0 records, with its position after i+1 steps, the time t0 + i dt: each recorded time is one step too early for the recorded position.", "quantifier": "for all n, dt, start states (exact real arithmetic)", "why_tests_cant": "A relation between two recorded arrays over all run lengths.", "anchors": ["Source/Physics/ParticlePushers/ParticlePusher.cpp: ParticlePusher::PushParticle", "Source/Particles/Particle.cpp: UpdateTrack, UpdateTime"]}
{"id": "C21", "title": "Event list is a bounded sequence", "statement": "After any sequence of AddParticle calls on a list of capacity m, the list holds exactly the first min(k,m) added particles in order; later ones are lost with an error message and never freed; GetParticle(i) returns the i-th for i < GetNPart, and destroying the list frees each held particle exactly once.", "quantifier": "for all capacities and all sequences of additions", "why_tests_cant": "The default capacity is one million; ordinary tests never reach overflow.", "anchors": ["Source/Particles/ParticleList.cpp, ParticleList.hh: ParticleList::AddParticle, GetParticle, GetNPart, ~ParticleList"]}
{"id": "C22", "title": "Each sampled primary is used once", "statement": "Called sequentially, the i-th call of GenerateList (i <= N) returns a list with exactly one live particle of the configured species built from the i-th sample of every coordinate, with weight 1 and time 0, named with the index i-1; the (N+1)-th call ends the program with code 1. No sample is skipped or used twice.", "quantifier": "for all N, all sample tables, all call counts", "why_tests_cant": "All call histories.", "anchors": ["Source/Particles/SourceGenerator.cpp: SourceGenerator::GenerateList"]}
{"id": "C23", "title": "Source direction", "statement": "With zero angular spread the generated primaries fly along (-dx,-dy,dz) where (dx,dy,dz) is the unit vector of the requested direction (outside the antiparallel cut-off): the requested direction is obtained only for directions along z, and for transverse directions the beam goes exactly backwards.", "quantifier": "for all requested directions (exact real arithmetic)", "why_tests_cant": "The shipped examples only use the z axis, where the defect is invisible.", "anchors": ["Source/Particles/SourceGenerator.cpp: SourceGenerator constructor (m_rotaion), GenerateList", "Source/Tools/ThreeVector.hh: RotateToAxis"]}
{"id": "C24", "title": "Concurrent primaries", "statement": "GenerateList may be called from several threads, and its accesses to the shared sample counter are not synchronised. In every interleaving of at most N calls on a source of N primaries no sample beyond the tables is read and the program does not exit. But for every N >= 2 there are schedules with two threads in which two events receive the same primary while another primary is never simulated; there are schedules in which a primary is torn (its coordinates come from two different samples); a call beyond N may read behind the tables, and since increments can be lost, N+1 calls may all be served from N samples. If calls do not overlap, each primary is used exactly once.", "quantifier": "for all interleavings of any number of threads (safety, serial exactness), for all N >= 2 (duplicated primary), for all N >= 1 (lost increment); existence of the other bad schedules", "why_tests_cant": "Schedule dependent; a data race practically never shows in a test.", "anchors": ["Source/Particles/SourceGenerator.cpp: GenerateList", "Source/Exec/QEDCASC.cpp: omp parallel for", "Source/Python/RunManager.cpp: beamOn"]}
{"id": "C25", "title": "Static field", "statement": "The static field returns the configured E and B at every time and position.", "quantifier": "for all times and positions, any arithmetic", "why_tests_cant": "All space-time points.", "anchors": ["Source/Physics/Fields/EMField/StaticEMField.cpp: StaticEMField::GetField"]}
{"id": "C26", "title": "Plane wave shape", "statement": "The plane-wave field is transverse to the propagation direction, |E| = |B| <= |max field|, and depends on time and position only through (distance along the propagation direction minus time): it is carried rigidly along the propagation direction at unit speed.", "quantifier": "for all directions outside the antiparallel cut-off, polarisations, times and positions (exact real arithmetic)", "why_tests_cant": "Continuum of space-time points and parameters.", "anchors": ["Source/Physics/Fields/EMField/PlaneEMField.cpp: PlaneEMField::GetField"]}
{"id": "C27", "title": "Plane wave polarisation", "statement": "In the plane-wave field E.B = |E0|^2 sin(2 phi) for polarisation angle phi: E and B are perpendicular exactly when the local amplitude vanishes or sin(2 phi)=0, and for phi = pi/2 the energy flux E x B points against the propagation direction.", "quantifier": "for all polarisation angles, times and positions (exact real arithmetic)", "why_tests_cant": "The default polarisation 0 hides it.", "anchors": ["Source/Physics/Fields/EMField/PlaneEMField.cpp: PlaneEMField::GetField"]}
{"id": "C28", "title": "Gaussian beam bound", "statement": "The Gaussian-beam field is transverse to the beam direction with |E| = |B| never larger than |max field| anywhere at any time.", "quantifier": "for all beam parameters with non-zero waist, wavelength and duration, all times and positions (exact real arithmetic)", "why_tests_cant": "Continuum of space-time points.", "anchors": ["Source/Physics/Fields/EMField/GaussianEMField.cpp: GaussianEMField::GetField"]}
{"id": "C29", "title": "Gaussian beam position and carrier", "statement": "Moving the start and the focus of the Gaussian beam together by any vector changes nothing: the waist always sits at the origin, not at the requested focus. At a fixed position E never changes sign in time: the carrier does not oscillate in time, only the envelope moves.", "quantifier": "for all translations, positions and pairs of times (exact real arithmetic)", "why_tests_cant": "A relation between two configurations or two times, universally quantified.", "anchors": ["Source/Physics/Fields/EMField/GaussianEMField.cpp: GaussianEMField constructor, GetField"]}
{"id": "C30", "title": "Focused field cut-off and polarisation", "statement": "The tightly focused field is exactly zero wherever the local amplitude is below 1e-15, hence everywhere for non-positive max field. Its polarisation rotation is not a rotation: the second transverse component is computed from the already rotated first one, so the transverse field strength changes with the polarisation angle.", "quantifier": "for all parameters, times, positions (exact real arithmetic)", "why_tests_cant": "Default polarisation 0 hides the defect; cut-off is a region of space-time.", "anchors": ["Source/Physics/Fields/EMField/FocusingField.cpp: FocusingField::GetField"]}
{"id": "C31", "title": "Dead particles are frozen", "statement": "Pushing a dead particle changes nothing about it, for every pusher and field; processes ignore dead particles and create nothing from them.", "quantifier": "for all particles, pushers, processes, fields; any arithmetic", "why_tests_cant": "All states.", "anchors": ["Source/Physics/ParticlePushers/ParticlePusher.cpp: PushParticle", "Source/Physics/Processes/*.cpp: Interact"]}
{"id": "C32", "title": "Photons are ballistic at light speed", "statement": "After n pushes with step dt a live photon with momentum p != 0 sits at x0 + n dt p/|p|, its momentum is unchanged and its clock shows t0 + n dt, for every field and pusher.", "quantifier": "for all n, dt, momenta, fields, pushers (exact real arithmetic)", "why_tests_cant": "All run lengths.", "anchors": ["Source/Physics/ParticlePushers/ParticlePusher.cpp: PushParticle"]}
{"id": "C33", "title": "Leptons never outrun light", "statement": "In one push with dt > 0 a massive particle moves by less than dt, for every field and every pusher (Lorentz, Landau, modified Landau).", "quantifier": "for all fields, states and dt > 0 (exact real arithmetic)", "why_tests_cant": "Must hold for every field, including arbitrarily strong and discontinuous ones.", "anchors": ["Source/Physics/ParticlePushers/ParticlePusher.cpp: PushParticle, PushPosition"]}
{"id": "C34", "title": "Free flight", "statement": "Without field a massive particle keeps its momentum and moves by dt p/(m gamma) per push, with the Lorentz pusher and - for p != 0 - with both radiation-reaction pushers; in a uniform constant electric field the Lorentz push changes the momentum by exactly q E dt.", "quantifier": "for all states and steps (exact real arithmetic)", "why_tests_cant": "Continuum of states.", "anchors": ["Source/Physics/ParticlePushers/ParticlePusher.cpp: PushParticle", "Source/Physics/ParticlePushers/LorentzPusher.cpp, LandauPusher.cpp, ModifiedLandauPusher.cpp: PushMomentum"]}
{"id": "C35", "title": "Force power balance", "statement": "The Lorentz force does no work by the magnetic field: F.p = q E.p. The Landau force satisfies F.p = q E.p - (2/3) alpha eta^2 |p|, never more than the Lorentz power, and the modified one lies between the two because its correction factor is in (0,1].", "quantifier": "for all states and fields with p != 0 (exact real arithmetic)", "why_tests_cant": "Continuum.", "anchors": ["Source/Physics/ParticlePushers/LorentzPusher.cpp, LandauPusher.cpp, ModifiedLandauPusher.cpp: PushMomentum (eta, gaunt factor)"]}
{"id": "C36", "title": "Quantum parameter", "statement": "CalculateEta equals the invariant field strength gamma*sqrt(|E+v x B|^2-(v.E)^2) seen by the particle; it is non-negative, vanishes without field, scales linearly with the field strength, and a purely longitudinal electric field counts without the factor gamma.", "quantifier": "for all particles and fields (exact real arithmetic)", "why_tests_cant": "Continuum.", "anchors": ["Source/Physics/Processes/PhotonEmission.cpp: CalculateEta", "Source/Physics/ParticlePushers/LandauPusher.cpp: PushMomentum (eta, lines 15-21)", "Source/Physics/Processes/NonLinearBreitWheeler.cpp: CalculateChi"]}
{"id": "C37", "title": "Optical depth discipline", "statement": "After every stochastic-emission interaction of a live massive particle whose depth was non-negative before, its depth is non-negative again; a recoil or photon happens only in a step in which the accumulated depth ran below zero.", "quantifier": "for all particles, fields, tables and random draws (exact real arithmetic)", "why_tests_cant": "All histories of draws.", "anchors": ["Source/Physics/Processes/StochasticEmission.cpp: StochasticEmission::Interact"]}
{"id": "C38", "title": "Momentum balance of stochastic emission", "statement": "When a photon is created by stochastic emission its momentum plus the emitter's new momentum equals the emitter's old momentum as long as the photon energy is below the emitter's momentum; the emitter's position, mass, charge and weight are unchanged, and the lost momentum is always along the direction of flight. A photon of more energy than the emitter's momentum is stored flying backwards while the emitter is turned round as well, so twice the photon momentum is missing from the balance.", "quantifier": "for all emitters, fields, tables and draws (exact real arithmetic)", "why_tests_cant": "Continuum of states and draws.", "anchors": ["Source/Physics/Processes/StochasticEmission.cpp: StochasticEmission::Interact"]}
{"id": "C39", "title": "Photon sampling is inverted", "statement": "With stochastic emission a photon is stored only if the sampling draw exceeds the sample fraction: with the default fraction 1 no photon is ever created although the emitter recoils, over a whole run of any length.", "quantifier": "for all runs, fields, tables and draws (exact real arithmetic)", "why_tests_cant": "A statement about all draws; the run looks plausible because leptons still lose energy.", "anchors": ["Source/Physics/Processes/StochasticEmission.cpp: StochasticEmission::Interact", "Source/IO/Input/FileParser.cpp: ReadPhysics default"]}
{"id": "C40", "title": "Continuous emission leaves the emitter alone", "statement": "Continuous emission never changes the emitting particle, creates at most one photon per call, above the minimum energy, at the emitter's place, time and direction, with weight emitter weight * emission probability / sample fraction.", "quantifier": "for all emitters, fields, tables, draws (any arithmetic for the frame part)", "why_tests_cant": "All states and draws.", "anchors": ["Source/Physics/Processes/ContinuousEmission.cpp: ContinuousEmission::Interact"]}
{"id": "C41", "title": "Pair creation", "statement": "A live photon whose depth runs below zero is replaced by exactly one positron followed by exactly one electron at the same place, time and weight along the photon's direction, and is dead afterwards; otherwise nothing is created and only its depth changes. The energies of the pair are split*E and (1-split)*E, and when both are at least the rest energy the reported lepton energies sum exactly to the photon energy.", "quantifier": "for all photons, fields, tables and draws (exact real arithmetic for the energies)", "why_tests_cant": "Continuum of energies and draws.", "anchors": ["Source/Physics/Processes/NonLinearBreitWheeler.cpp: NonLinearBreitWheeler::Interact, CalculateSplit"]}
{"id": "C42", "title": "Pair below threshold", "statement": "If a pair member is given less than its rest energy its momentum is not a number (square root of a negative number); this happens for every pair made from a photon of energy below 2.", "quantifier": "for all photon energies < 2 and splits (IEEE binary64)", "why_tests_cant": "Needs the rare low-energy photon to convert.", "anchors": ["Source/Physics/Processes/NonLinearBreitWheeler.cpp: NonLinearBreitWheeler::Interact"]}
{"id": "C43", "title": "Charge is conserved through a cascade", "statement": "For every event and any number of time steps, with any combination of emission and pair production, the total charge of the event list never changes as long as the capacity is not exceeded.", "quantifier": "for all initial events, fields, tables, draws, numbers of steps", "why_tests_cant": "All cascade histories.", "anchors": ["Source/Exec/QEDCASC.cpp: main time loop", "Source/Physics/Processes/*.cpp: Interact"]}
{"id": "C44", "title": "Charge is lost at capacity", "statement": "If the list has exactly one free place when a photon converts, the positron is stored and the electron is lost, so the total charge changes by +1; with no free place both are lost and the photon is gone.", "quantifier": "a witness, and for every list with exactly one free place", "why_tests_cant": "Needs a cascade of one million particles.", "anchors": ["Source/Particles/ParticleList.cpp: AddParticle", "Source/Physics/Processes/NonLinearBreitWheeler.cpp: Interact"]}
{"id": "C45", "title": "A time step always ends", "statement": "The pass over the particles of one time step visits every particle present at its end exactly once, including those created during the pass, and always ends after at most the list capacity of iterations although particles are appended while it runs.", "quantifier": "for all events, processes and draws, any arithmetic", "why_tests_cant": "Termination of a loop whose bound grows inside its body.", "anchors": ["Source/Exec/QEDCASC.cpp: main inner loop over particles", "Source/Python/RunManager.cpp: beamOn inner loop"]}
{"id": "C46", "title": "Number of time steps", "statement": "For a positive time step the simulation makes exactly the least number n of steps with n*dt >= end time (none if the end time is <= 0). For a zero or negative time step and positive end time it never ends.", "quantifier": "for all time steps and end times (exact real arithmetic)", "why_tests_cant": "Non-termination and all parameter values.", "anchors": ["Source/Exec/QEDCASC.cpp: main while(time<timeEnd)"]}
{"id": "C47", "title": "Newborn particles run ahead", "statement": "A particle created in a step is itself pushed in that same step: it starts at its parent's already advanced clock and is advanced again, so at the end of every step a live particle of generation g is exactly g time steps ahead of the simulation clock: primaries agree with it, nothing alive is behind it.", "quantifier": "for all events and numbers of steps (exact real arithmetic)", "why_tests_cant": "Relation between clocks over all cascade histories.", "anchors": ["Source/Exec/QEDCASC.cpp: main loop", "Source/Physics/Processes/StochasticEmission.cpp, NonLinearBreitWheeler.cpp: Interact"]}
{"id": "C48", "title": "Particles keep their identity", "statement": "During a run the list only grows at its end; the particle at a given index never changes its species, mass, charge, weight or tracking flag, a dead particle never comes back to life and never changes in any way.", "quantifier": "for all runs, any arithmetic", "why_tests_cant": "All cascade histories.", "anchors": ["Source/Exec/QEDCASC.cpp: main loop", "Source/Particles/Particle.hh", "Source/Physics/Processes/*.cpp"]}
{"id": "C49", "title": "Histogram counting", "statement": "Adding a particle increases exactly one bin by one - the bin whose centre is nearest to the particle's energy - if the energy lies strictly between the first and last centre, and changes no bin otherwise; after any sequence of additions the sum of the bins is the number of particles that were strictly in range.", "quantifier": "for all histograms with >= 2 bins, all sequences of particles (exact real arithmetic)", "why_tests_cant": "All sequences and energies; boundary values are dropped.", "anchors": ["Source/IO/Output/Histogram.cpp: Histogram::AppParticle, Initialise"]}
{"id": "C50", "title": "Histogram type is ignored", "statement": "The configured quantity of a histogram has no effect: whatever type string is configured, the histogram always bins the particle energy, and the particle weight is ignored.", "quantifier": "for all type strings, particles and histograms; any arithmetic", "why_tests_cant": "Relation between two configurations; every type string.", "anchors": ["Source/IO/Output/Histogram.cpp: Histogram::AppParticle, Fill"]}
{"id": "C51", "title": "One-bin histogram is always empty", "statement": "A histogram configured with one bin (the default) has the bin centre NaN for all limits, so no particle is ever counted.", "quantifier": "for all limits and particles (IEEE binary64)", "why_tests_cant": "Needs NaN semantics for all limits; empty histograms look plausible.", "anchors": ["Source/IO/Output/Histogram.cpp: Histogram::Initialise, AppParticle", "Source/IO/Input/FileParser.cpp: ReadHistograms default bins"]}
{"id": "C52", "title": "Histogram merge", "statement": "Merging adds bin by bin when the binning agrees and changes nothing otherwise, in both cases the argument is consumed; merging a collection gives the same bins in any order; after merging a histogram with itself any further use is undefined behaviour.", "quantifier": "for all histograms (exact real arithmetic)", "why_tests_cant": "All permutations.", "anchors": ["Source/IO/Output/Histogram.cpp: Histogram::Merge"]}
{"id": "C53", "title": "Histogram normalisation", "statement": "Fill with at least one in-range particle leaves non-negative bins that sum to 1 on an empty histogram; filling in two portions gives the same bin as filling at once only if the first portion had a single particle in range or both portions put the same fraction into that bin, because normalised and raw counts are mixed.", "quantifier": "for all particle lists (exact real arithmetic)", "why_tests_cant": "All lists.", "anchors": ["Source/IO/Output/Histogram.cpp: Histogram::Fill, Normalise"]}
{"id": "C54", "title": "Every histogram is taken exactly once per event", "statement": "For each event every configured histogram is filled exactly once - during the time loop or right after it - in configuration order, never before its own time unless the simulation ends first, and no two during the same step of the loop.", "quantifier": "for all histogram lists and times, all steps (any total clock)", "why_tests_cant": "All orders of histogram times, including unsorted and equal ones.", "anchors": ["Source/Exec/QEDCASC.cpp: main loop, histCount"]}
{"id": "C55", "title": "Event table is a partition", "statement": "The stored result of an event contains exactly one primary row and, for each final particle of the list, exactly one row in exactly one of the three species tables (photons that were absorbed included), in list order, with id, energy, momentum and position of that particle.", "quantifier": "for all events", "why_tests_cant": "All event contents.", "anchors": ["Source/IO/Output/OutputManager.cpp: OutputManager::StoreSource"]}
{"id": "C56", "title": "Output order does not depend on the schedule", "statement": "The tables written for a source are the concatenation of the per-event rows in event order, whatever order the events finish in.", "quantifier": "for all completion orders (permutations) of events", "why_tests_cant": "All schedules.", "anchors": ["Source/IO/Output/OutputManager.cpp: StoreSource, OutputEvents", "Source/Exec/QEDCASC.cpp: omp parallel for"]}
{"id": "C57", "title": "Field grid layout", "statement": "The 3D field arrays written by OutEMField have row-major layout: flat index i*ny*nz+j*nz+k is a bijection between grid points and array entries, and each entry is the field at its grid point.", "quantifier": "for all grid sizes", "why_tests_cant": "All sizes.", "anchors": ["Source/IO/Output/OutputManager.cpp: OutputManager::OutEMField"]}
{"id": "C58", "title": "Only one output source works", "statement": "With two sources whose output is enabled, writing the second one creates data sets whose names already exist, which the file library refuses: the program ends with an uncaught exception.", "quantifier": "for all configurations with at least two output sources", "why_tests_cant": "Needs the pair of configurations; a relation between repeated outputs.", "anchors": ["Source/IO/Output/OutputManager.cpp: OutputEvents", "Source/IO/Output/HDF5Output.cpp: AddArray2D"]}
{"id": "C59", "title": "Group creation test is inverted", "statement": "Given the documented contract of the HDF5 existence query, AddGroup creates a group exactly when it already exists (which the library refuses) and does not create a missing one.", "quantifier": "for all file states and group names", "why_tests_cant": "Depends on the library contract for all file states.", "anchors": ["Source/IO/Output/HDF5Output.cpp: HDF5Output::AddGroup"]}
{"id": "C60", "title": "Rescaled gamma", "statement": "Track output in SI units multiplies gamma, a pure number, by the time unit; without units all values are written unchanged.", "quantifier": "for all tracks and unit systems (exact real arithmetic)", "why_tests_cant": "Main never passes units; only library users see it.", "anchors": ["Source/IO/Output/OutputManager.cpp: OutputEvents"]}
{"id": "C61", "title": "MPI gather", "statement": "With n processes, in every interleaving of sends and receives the event gather neither deadlocks nor mixes data: the master ends with its own rows followed by the rows of rank 1, 2, ... n-1 in order for each table.", "quantifier": "for all process counts, all message contents, all schedules (with or without buffering)", "why_tests_cant": "Schedules.", "anchors": ["Source/IO/Output/OutputManager.cpp: OutputManager::OutputEventsMPI"]}
{"id": "C62", "title": "MPI histogram reduction", "statement": "The reduced histogram is the sum over all ranks of their bins, whatever order messages arrive in, and messages of different histograms are never mixed.", "quantifier": "for all process counts, histogram counts and arrival orders", "why_tests_cant": "Arrival orders.", "anchors": ["Source/IO/Output/OutputManager.cpp: OutputManager::OutputHistMPI"]}
{"id": "C63", "title": "INI round trip", "statement": "Writing any list of sections with key = value lines (names and values without special characters, lines shorter than 199 characters) and parsing it back yields no parse error and, for every section and key, exactly the written value.", "quantifier": "for all such configurations", "why_tests_cant": "All configurations.", "anchors": ["Source/IO/Input/ini.cpp: ini_parse_stream", "Source/IO/Input/INIReader.cpp: INIReader, ValueHandler, Get"]}
{"id": "C64", "title": "Keys are case-insensitive and do not collide", "statement": "Looking up (section,key) gives the same answer for every upper/lower-case spelling, and two different pairs (up to case) never share an entry as long as key names contain no '='.", "quantifier": "for all files and names", "why_tests_cant": "All names.", "anchors": ["Source/IO/Input/INIReader.cpp: INIReader::MakeKey, Get, GetString"]}
{"id": "C65", "title": "Comments and blank lines do not matter", "statement": "Inserting a blank line, or a line shorter than 199 characters starting with ; or # , anywhere between the lines of a file (also inside a continued value; at the very start only if the file does not begin with a byte order mark) does not change any parsed value; a comment line of 199 or more characters is split and its tail is parsed as configuration.", "quantifier": "for all files and insertion points", "why_tests_cant": "All files; long lines are not tested.", "anchors": ["Source/IO/Input/ini.cpp: ini_parse_stream"]}
{"id": "C66", "title": "Repeated keys accumulate", "statement": "A key given twice does not override: the stored value is all non-empty texts joined by newlines, and numeric queries see the first non-empty one.", "quantifier": "for all files", "why_tests_cant": "All files.", "anchors": ["Source/IO/Input/INIReader.cpp: INIReader::ValueHandler, GetReal"]}
{"id": "C67", "title": "Vector values", "statement": "GetThreeVector ignores its default: a missing key yields the zero vector. The documented form [a,b,c] of unsigned whole numbers without blanks is read as the single number abc; an upper-case exponent E is dropped, so 1E5 is read as 15. Every text gives a vector or ends the program with code 1. With blank-separated plain decimal numbers the three numbers are returned, missing ones are zero, and more than three end the program with code 1.", "quantifier": "for all values", "why_tests_cant": "All texts.", "anchors": ["Source/IO/Input/INIReader.cpp: INIReader::GetThreeVector"]}
{"id": "C68", "title": "Typed lookups fall back to the default", "statement": "GetInteger, GetReal, GetBoolean and GetString return the default exactly when the key is absent (or empty, for strings) or its text does not start with a value of that type; booleans accept exactly true/yes/on/1 and false/no/off/0 in any case; integers with a leading 0 are read as octal.", "quantifier": "for all files, names and defaults", "why_tests_cant": "All texts.", "anchors": ["Source/IO/Input/INIReader.cpp: GetInteger, GetReal, GetBoolean, GetString"]}
{"id": "C69", "title": "Particle sections are read consecutively", "statement": "The number of sources read is the largest k such that sections Particle1..Particlek are all present; sections after the first gap are silently ignored; the same holds for histograms. A negative particle number becomes 2^32 minus its absolute value.", "quantifier": "for all section lists", "why_tests_cant": "All files.", "anchors": ["Source/IO/Input/FileParser.cpp: FileParser::ReadParticles, ReadHistograms"]}
{"id": "C70", "title": "Mandatory settings", "statement": "The file reader ends the program with code 1 unless section General is present with exactly this spelling and contains time_step, time_end and units; nothing is simulated in that case; parse errors elsewhere in the file are ignored.", "quantifier": "for all files", "why_tests_cant": "All files.", "anchors": ["Source/IO/Input/FileParser.cpp: FileParser::CheckVitals, FileParser::FileParser"]}
{"id": "C71", "title": "Python physics names", "statement": "setPhysics rejects the documented name 'classical' and accepts the misspelling 'clasical', for which beamOn runs the quantum model; only the accepted names make the physics count as set.", "quantifier": "for all strings", "why_tests_cant": "All strings.", "anchors": ["Source/Python/RunManager.cpp: RunManager::setPhysics, beamOn"]}
{"id": "C72", "title": "Python object life cycle", "statement": "For every sequence of calls on a run manager followed by its destruction, an object is freed twice exactly when some beamOn fails its set-up checks after an earlier run had created the objects, and the manager is used again for a run or destroyed afterwards; as long as every beamOn issued after the first successful one passes its checks nothing is freed twice.", "quantifier": "for all call sequences", "why_tests_cant": "All call histories.", "anchors": ["Source/Python/RunManager.cpp: RunManager::beamOn, ~RunManager, setField, setPhysics, setGenerator"]}
{"id": "C73", "title": "Python result tables", "statement": "After a successful beamOn the electron, positron and photon tables together contain exactly one 7-column row per final particle and the input table one 6-column row per event, for every assignment of events to threads; the multiset of rows does not depend on the assignment.", "quantifier": "for all assignments of events to threads, all events", "why_tests_cant": "All schedules.", "anchors": ["Source/Python/RunManager.cpp: beamOn, getInput, getElectrons, getPositrons, getPhotons"]}
{"id": "C74", "title": "Command line", "statement": "The program runs a simulation only for exactly one argument ending in .ini; arguments shorter than four characters (other than -h) end in an uncaught exception instead of the error message.", "quantifier": "for all argument vectors", "why_tests_cant": "All strings.", "anchors": ["Source/Exec/QEDCASC.cpp: main argument handling"]}
{"id": "C75", "title": "Geant hand-over", "statement": "Successive calls of GeneratePrimaries hand every particle of every simulated event to the transport exactly once, event by event and from last to first inside an event, and request the end of the run on the call after the last one.", "quantifier": "for all events lists", "why_tests_cant": "All histories.", "anchors": ["Source/Geant/G4CascadeGenerator.cpp: GeneratePrimaries"]}
{"id": "C76", "title": "Focused beam position and carrier", "statement": "The tightly focused field is identically zero at the origin at all times; moving start and focus together changes nothing (the focus always sits at the origin); and at a fixed position two fields at different times, both above the cut-off, are positive multiples of each other: the carrier does not oscillate in time.", "quantifier": "for all parameters, translations, positions and pairs of times (exact real arithmetic)", "why_tests_cant": "Relations between configurations or times; a test at one point sees plausible numbers.", "anchors": ["Source/Physics/Fields/EMField/FocusingField.cpp: FocusingField constructor, GetField"]}
{"id": "C77", "title": "Table access of the processes", "statement": "With tables of consistent sizes (two or more entries per axis) no interaction of any process reads outside a table, whatever the particle, field and draws, NaN included: it returns or ends the program with exit code -1; the latter happens only when an emission or pair is sampled at a parameter beyond the last but one row of the sampling table.", "quantifier": "for all particles, fields, tables and draws (any arithmetic)", "why_tests_cant": "Out-of-range reads depend on rare draws and extreme fields.", "anchors": ["Source/Physics/Processes/PhotonEmission.cpp: CalculateChi", "Source/Physics/Processes/NonLinearBreitWheeler.cpp: CalculateSplit", "Source/Tools/Numerics.cpp"]}
{"id": "C78", "title": "A whole event run is memory safe", "statement": "With tables of consistent sizes, a positive time step and an event within capacity, the simulation of one event either completes, the event staying within its capacity, or ends the program with exit code -1; it never reads or writes outside a table or the particle list and never loops for ever.", "quantifier": "for all events, fields, tables, draws, end times, numbers of histograms (exact real arithmetic for the clock)", "why_tests_cant": "All runs of any length with a list that grows while it is traversed.", "anchors": ["Source/Exec/QEDCASC.cpp: main time loop", "Source/Particles/ParticleList.cpp, ParticleList.hh: AddParticle, GetParticle", "Source/Physics/Processes/*.cpp: Interact"]}
{"id": "C79", "title": "Histogram normalisation without counts", "statement": "Fill on an empty histogram with one or more particles of which none lies in range turns every bin into NaN; and because the constructor leaves the entry counter uninitialised, filling a fresh histogram with no particles keeps zeros or yields NaN in every bin depending on the garbage.", "quantifier": "for all histograms with any number of bins, all particle lists out of range, all garbage values, every math library (binary64)", "why_tests_cant": "Depends on uninitialised memory and on a corner case no reference output shows.", "anchors": ["Source/IO/Output/Histogram.cpp: Histogram::Histogram, Fill, AppParticle"]}
{"id": "C80", "title": "Histogram filling from several threads", "statement": "The histograms are filled by all threads without synchronisation: in every interleaving the final bin is at most the true count and at least one if anything was added to it; increments that are not interleaved are counted exactly; two threads in lock step lose half of the counts, for any number of particles.", "quantifier": "for all numbers of threads, all work lists, all interleavings of loads and stores", "why_tests_cant": "All schedules.", "anchors": ["Source/Exec/QEDCASC.cpp: main parallel loop", "Source/IO/Output/Histogram.cpp: Histogram::AppParticle, Fill"]}
{"id": "C81", "title": "Tracks can be written only once", "statement": "Stored tracks are never cleared: once a non-empty track has been stored, a second output of tracks on the same manager never succeeds, whatever happens in between; so with tracking on, a run with two sources never completes even if no source output is requested.", "quantifier": "for all call sequences, all file contents, all return conventions of the HDF5 object query", "why_tests_cant": "All call histories.", "anchors": ["Source/IO/Output/OutputManager.cpp: StoreTrack, OutputEvents", "Source/Exec/QEDCASC.cpp: main"]}
{"id": "C82", "title": "Track groups do not identify events", "statement": "The event number of a track is never written: stores that differ only in the event numbers give the same file, and exchanging the order in which two threads store their tracks exchanges the contents of the groups Event0 and Event1.", "quantifier": "for all tracks, all stores, all storing orders", "why_tests_cant": "All schedules.", "anchors": ["Source/IO/Output/OutputManager.cpp: StoreTrack, OutputEvents"]}
{"id": "C83", "title": "List tracks exclude event tracks", "statement": "The two groups ParticleList and ParticleTrack share one existence flag: after ListTracks on a new manager no output of a non-empty set of event tracks ever succeeds, whatever calls happen before, between and after.", "quantifier": "for all call sequences, all return conventions of the HDF5 object query", "why_tests_cant": "All call histories.", "anchors": ["Source/IO/Output/OutputManager.cpp: ListTracks, OutputEvents"]}
{"id": "C84", "title": "Histogram names must differ", "statement": "Two histograms whose names denote the same path never both get written: the program never completes; with pairwise different one-component names every histogram is written with its own centres and values.", "quantifier": "for all lists of histograms, all call sequences", "why_tests_cant": "All histogram lists.", "anchors": ["Source/IO/Output/OutputManager.cpp: OutputHist", "Source/Exec/QEDCASC.cpp: main"]}
{"id": "C85", "title": "MPI repeats event numbers", "statement": "All ranks run the same input file and number their events from 0, so the gathered tables contain the event numbers 0..n-1 once per rank: row i*n+j of the primary table is event j of rank i and carries the number j.", "quantifier": "for all numbers of ranks and events", "why_tests_cant": "All sizes.", "anchors": ["Source/IO/Output/OutputManager.cpp: OutputEventsMPI", "Source/Exec/QEDCASC.cpp: main"]}
{"id": "C86", "title": "MPI writes no tracks", "statement": "With MPI no particle track is ever written: in every schedule and whatever was tracked, the completed file contains no object below Particles/ParticleTrack.", "quantifier": "for all process counts, inputs and schedules", "why_tests_cant": "Schedules.", "anchors": ["Source/IO/Output/OutputManager.cpp: OutputEventsMPI"]}
{"id": "C87", "title": "Section names are case sensitive", "statement": "Settings are looked up without regard to case but whole sections are recognised by their exact spelling: a file whose settings are in [general] is refused although every mandatory setting can be looked up, a file without settings in a section spelt exactly Field has no field, and likewise no particles without Particle1 and no histograms without Histogram1.", "quantifier": "for all files", "why_tests_cant": "All files and spellings.", "anchors": ["Source/IO/Input/FileParser.cpp: CheckVitals, ReadField, ReadParticles, ReadHistograms", "Source/IO/Input/INIReader.cpp: MakeKey"]}
{"id": "C88", "title": "Indented lines continue the previous setting", "statement": "A line that starts with a blank and is neither blank nor a comment does not set anything by itself after a key has been read in the same section: it is appended to the value of the last key, even when it has the form key = value or [section].", "quantifier": "for all well-formed configurations (as in C63) followed by any indented line shorter than 199 characters", "why_tests_cant": "All files; the effect is silent.", "anchors": ["Source/IO/Input/ini.cpp: ini_parse_stream", "Source/IO/Input/INIReader.cpp: ValueHandler"]}
{"id": "C89", "title": "Conversion of settings to internal units", "statement": "Every dimensional setting, multiplied by the reference unit the code chooses, gives back the SI number of the file: times, lengths, energies, field strengths of every field type, positions; histogram ranges, divergence, direction and polarisation are taken over unchanged.", "quantifier": "for all accepted files (exact real arithmetic)", "why_tests_cant": "All files.", "anchors": ["Source/IO/Input/FileParser.cpp: ReadGeneral, ReadField, ReadParticles, ReadPhysics, ReadHistograms", "Source/Tools/UnitsSystem.cpp"]}
{"id": "C90", "title": "Python runs leak their processes", "statement": "Every beamOn that passes its checks allocates one emission process, and a second one with pair production, and none of them is ever freed: when a manager has been used and destroyed, exactly the processes of all its runs are left.", "quantifier": "for all call sequences that end normally", "why_tests_cant": "All call histories.", "anchors": ["Source/Python/RunManager.cpp: beamOn, ~RunManager"]}
{"id": "C91", "title": "A run's output file", "statement": "A run of the program completes exactly if its set-up succeeds, every event of every source can be simulated in file order with one stream of random numbers, and the prescribed output calls succeed. With one output source and histograms of different simple names it does complete, and the file holds one primary row per event, one row per final particle in the table of its species event after event, every histogram's centres and counts, and, with tracking, the track of every final particle.", "quantifier": "for all input files, random streams, event numbers and histories (second part: for the HDF5 return convention in which missing groups are created, fewer than 2^29 rows)", "why_tests_cant": "All inputs and histories, composed over the whole program.", "anchors": ["Source/Exec/QEDCASC.cpp: main", "Source/IO/Output/OutputManager.cpp"]}
{"id": "C92", "title": "Input files with which no run completes", "statement": "Whatever the physics and the random numbers, the program never ends normally with two output sources, with tracking and a source following one that has events, with two histograms whose names denote the same place, or, if the HDF5 object query answers as documented, with any histogram or output source at all.", "quantifier": "for all input files of these kinds, all random streams", "why_tests_cant": "All inputs; the failure comes after the whole simulation.", "anchors": ["Source/Exec/QEDCASC.cpp: main", "Source/IO/Output/OutputManager.cpp: OutputEvents, OutputHist, AddGroup"]}
{"id": "C93", "title": "Geant free path", "statement": "GetMeanFreePath makes the laser process act at a query exactly if the material is a laser field and an even number of in-field queries, by whatever track, came before; so of two tracks asking in turn one always interacts and the other never does.", "quantifier": "for all sequences of queries by any mixture of tracks, any arithmetic", "why_tests_cant": "All interleavings of tracks.", "anchors": ["Source/Geant/G4StochasticEmission.cpp: GetMeanFreePath", "Source/Geant/G4CascadeTF.cpp: GetMeanFreePath"]}
{"id": "C94", "title": "Geant energies", "statement": "PostStepDoIt of the stochastic process proposes a kinetic energy of at least the rest energy of the particle, whatever field, step and draws are; without a field it turns kinetic energy K into sqrt(K^2+m^2) > K and changes nothing else. The generator hands the gun the total energy, which for a lepton is at least the rest energy.", "quantifier": "for all tracks, fields, steps, tables, generator states (exact reals)", "why_tests_cant": "Holds for every history of emissions.", "anchors": ["Source/Geant/G4StochasticEmission.cpp: PostStepDoIt", "Source/Geant/G4CascadeGenerator.cpp: GeneratePrimaries", "Source/Particles/Lepton.cpp"]}
{"id": "C95", "title": "Geant process destructor", "statement": "Destroying a G4StochasticEmission object has undefined behaviour after every sequence of calls: the lepton pointer is either never set or refers to an object already deleted.", "quantifier": "for all sequences of field settings, steps with any number of photons, and deletions by Geant4", "why_tests_cant": "All call sequences.", "anchors": ["Source/Geant/G4StochasticEmission.cpp: ~G4StochasticEmission, PostStepDoIt"]}
{"id": "C96", "title": "Neural-network photons", "statement": "All photons created in one step of G4CascadeTF are identical, made from the same sample as the electron (the photon graph's sample is not used), with the squared momentum as energy; the photon component is drawn with the electron weights, which is out of bounds if the photon graph has fewer components.", "quantifier": "for all graph outputs, samplers, photon numbers, generator states; any arithmetic", "why_tests_cant": "All graph outputs and draws.", "anchors": ["Source/Geant/G4CascadeTF.cpp: PostStepDoIt"]}
{"id": "C97", "title": "Table files round trip", "statement": "Every table file written as a count followed by that many numbers (any white space between them, any text after them) is read back exactly: rates, photon-energy table, fraction table and axes; the eta axis is uniform between the limits in the file, the chi axis of each eta is uniform from chimin and reaches eta/2 at its etaLength-th entry. Whatever the files contain, every array has the length stored with it, so lengths of at least two suffice for the memory safety of C77/C78. An unset QED_TABLES_PATH is undefined behaviour (string from a null pointer, after the message), a missing file ends the program with code 1, nothing else can fail.", "quantifier": "for all file contents, paths and contents of uninitialised memory; any arithmetic (axes: exact reals)", "why_tests_cant": "All texts and all layouts of white space.", "anchors": ["Source/Physics/Processes/PhotonEmission.cpp: LoadTables", "Source/Physics/Processes/NonLinearBreitWheeler.cpp: LoadTables"]}
{"id": "C98", "title": "Truncated table files are accepted", "statement": "A rate file with fewer rows than announced is accepted: the last row is repeated up to the announced length. A photon-energy file with fewer numbers than announced is accepted: the missing entries are the contents of uninitialised memory, so the same files can give different tables.", "quantifier": "for all counts, all written prefixes, all memory contents; any arithmetic", "why_tests_cant": "Uninitialised memory is usually zero in a test.", "anchors": ["Source/Physics/Processes/PhotonEmission.cpp: LoadTables"]}
{"id": "C99", "title": "Emitted photons and the emitter's energy", "statement": "With tables loaded from files that list as many chi as eta values, in increasing eta, cumulative rows reaching 1 and chimin at most eta/2, a sampled chi is at most eta/2, so an emitted photon has at most the emitter's energy (gamma) and the emitter loses at most that momentum. With more chi than eta values this is false: at every inner eta each draw above the etaLength-th entry gives a photon of more than the emitter's energy, because the step of the chi axis is computed with the wrong length.", "quantifier": "for all such tables, engines, fields, moving leptons; exact reals", "why_tests_cant": "The shipped tables are square, so no test with them shows the wrong divisor.", "anchors": ["Source/Physics/Processes/PhotonEmission.cpp: LoadTables, CalculateChi", "Source/Physics/Processes/StochasticEmission.cpp: Interact"]}
{"id": "C100", "title": "Energy split of a pair", "statement": "If the draw lies within the cumulative rows of the two neighbouring chi, the fraction is between the ends of the fraction axis. A draw below the first entry is extrapolated and the fraction is negative for small enough draws (the shipped table has such rows for chi above about 100). The pair gets the magnitudes of both shares, so its energy equals that of the photon if and only if the fraction is between 0 and 1; otherwise energy is created.", "quantifier": "for all tables, engines, fields, photons; exact reals", "why_tests_cant": "Needs rare draws at large chi.", "anchors": ["Source/Physics/Processes/NonLinearBreitWheeler.cpp: CalculateSplit, Interact"]}
{"id": "C101", "title": "Recording tracks has no influence on the physics", "statement": "Whether tracks are recorded (tracking in [General]) changes nothing but the tracks: an event simulated with and without tracking from the same state of the generator ends in the same way, and if it completes, with the same clock, generator state, histogram contents and physical state of all particles (type, weight, time, position, momentum, optical depth, alive flag, order in the list). At the level of the program: if a run with tracking completes, the run without tracking completes too, and every group and data set of its file outside Particles/ParticleTrack is identical, while nothing exists below Particles/ParticleTrack.", "quantifier": "for every arithmetic, engine, field, process list, table contents, input parameters, number of sources and events, time step and end time, and every bound on the number of steps", "why_tests_cant": "A test compares one pair of runs; a coupling of recording and physics (an extra random number drawn, a shared buffer) may depend on configuration and shows up only for particular cascades.", "anchors": ["Source/Particles/Particle.cpp: UpdateTrack", "Source/Exec/QEDCASC.cpp", "Source/Physics/Processes/*.cpp: Interact", "Source/IO/Output/OutputManager.cpp"]}
{"id": "C102", "title": "The Lorentz pusher is the classical Runge-Kutta method for the equation of motion", "statement": "Any number of pushes of a live massive particle in any field that depends on time and position produces the position and momentum of the classical fourth order Runge-Kutta method applied to x' = v, p' = q(E + v x B), with the fields taken at the stage times t, t+dt/2, t+dt and the stage positions. In a homogeneous electric field that varies in time the momentum change of one push is therefore Simpson's rule for the impulse; it is exact over any number of steps of any length if the field is at most cubic in time.", "quantifier": "all fields, time steps, numbers of steps, live massive particles; exact reals", "why_tests_cant": "A wrong stage weight, a stage evaluated at the wrong time or place, or a stale field still gives plausible trajectories in the static fields tests use.", "anchors": ["Source/Physics/ParticlePushers/LorentzPusher.cpp", "Source/Physics/ParticlePushers/ParticlePusher.cpp"]}
{"id": "C103", "title": "What the Lorentz pusher keeps in a magnetic field", "statement": "In a magnetic field of fixed direction n, of any strength at any time and place, without electric field, any number of pushes keeps the component of the momentum along n exactly. The energy is not kept: with a strong field and a long step one push more than doubles the momentum although a magnetic field does no work.", "quantifier": "all strengths (functions of time and position), directions, time steps, numbers of steps, live massive particles; exact reals. The energy gain is one execution", "why_tests_cant": "Conservation has to hold for every step, also at step lengths nobody tests; the energy gain appears only if the step is long against the gyration.", "anchors": ["Source/Physics/ParticlePushers/LorentzPusher.cpp", "Source/Physics/ParticlePushers/ParticlePusher.cpp"]}
{"id": "C104", "title": "The clock of the event loop in double arithmetic", "statement": "The loop adds the time step to a double until it reaches the end time. For end times up to 2^25 steps it ends, and the number of executed steps is within (-1/2, +3/2) of the exact quotient; up to 2^52 steps it still ends, after at most three times the exact number of steps plus one; beyond 2^54 steps it never ends, whatever the physics, because the clock stops at a value below the end time.", "quantifier": "all finite doubles dt > 0 and tEnd in the stated ranges (and sum below 2^1023), all engines, worlds, histograms, events; binary64 with round to nearest even", "why_tests_cant": "The number of steps is off only through accumulated rounding, and the endless loop cannot be observed by a terminating test.", "anchors": ["Source/Exec/QEDCASC.cpp: 209-238"]}
{"id": "C105", "title": "Stochastic emission creates energy", "statement": "Emitter and photon together have more energy than the emitter had before, for every stored photon; if the photon energy is below the emitter's momentum the excess is (E'-p')-(E-p), less than one rest energy.", "quantifier": "all engines, configurations, moving leptons of positive mass, events with a photon stored and the emitter not stopped exactly; exact reals", "why_tests_cant": "The excess is tiny at high energies, and tests compare momenta or total energies with tolerances.", "anchors": ["Source/Physics/Processes/StochasticEmission.cpp: 36-50"]}
{"id": "C106", "title": "Pair production loses momentum", "statement": "If both members of the pair get more than their rest energy, the pair has exactly the energy of the photon but its momentum is smaller, along the photon's direction, by more than zero and less than two rest energies.", "quantifier": "all engines, configurations, photons of positive chi that convert with both shares above the rest energy; exact reals", "why_tests_cant": "As for C105: relative size is small and no tolerance is specified.", "anchors": ["Source/Physics/Processes/NonLinearBreitWheeler.cpp: 28-46"]}
{"id": "C107", "title": "The multivariate samplers", "statement": "RandNormNd returns samples whose mean and covariance are the requested ones. RandSinhArcsinhNd, which feeds the network process, adds the mean twice and uses the variance as a width: without skew the component i has mean m(1+c) and variance c^3 where m and c were requested, which is as requested only if c = 0 or (m = 0 and c = 1). With skew s the component is m + c(x cosh s + sqrt(1+x^2) sinh s), x being the normal sample; it grows with s, and a component of zero width is the mean.", "quantifier": "all dimensions, means, widths, skews, matrices that multiply with their transpose to the covariance matrix, and all expectations under which the drawn numbers are standardised and uncorrelated; exact reals", "why_tests_cant": "The distribution of samples is not observed by single calls, and the shift is invisible for the mean 0 and width 1 that a test would use.", "anchors": ["Source/Tools/MCTools.cpp: RandNormNd, RandSinhArcsinhNd"]}
{"id": "C108", "title": "The Python module and the main program simulate the same events", "statement": "Take an input file within reach of the Python module (SI units, gaussian or focusing field, one source with output, a model name both sides know, no minimum photon energy, sample fraction between 0 and 1). If the main program completes on it, with or without histograms and tracking, then the Python session that passes the values of the file to setTime, setField, setPhysics, setSampleFraction, usePairProduction, setGenerator and beamOn completes from the same generator state, and its four tables and the data sets of the output file show the same list of events, particle by particle in the same order. The model name classical is out of reach: the main program accepts it, the Python session runs nothing and returns empty tables.", "quantifier": "all input files and settings in reach, table contents, numbers of events below 2^29, generators, histograms with different simple names, every arithmetic in which -1, 0 and 1 differ; builds without OpenMP", "why_tests_cant": "Two front ends that duplicate the set-up code agree on tested settings and differ where one forgets a conversion, swaps two arguments or reorders processes.", "anchors": ["Source/Python/RunManager.cpp: setTime, setField, setPhysics, setGenerator, beamOn", "Source/Exec/QEDCASC.cpp: main", "Source/IO/Input/FileParser.cpp"]}
{"id": "C109", "title": "Beams in closed form", "statement": "For each laser field there is one right-handed orthonormal frame (u, v, n), n along the propagation direction, such that the field at every time and position is given by a closed formula in this frame: the plane wave is A (cos a u + sin a v), A (sin a u + cos a v) with A = maxE cos(k(n.x - t)); the Gaussian beam has the same form with the paraxial amplitude (waist ratio, radial and temporal Gaussian, phase k z + k r^2/2R without time dependence or Gouy phase), so its energy flow is cos(2a) |E|^2 along n; the focused field is, wherever its amplitude reaches 1e-15, the expansion of a tightly focused beam up to fourth order in the diffraction angle, with every coefficient as tabulated, mixed by the polarisation step that re-uses the overwritten component.", "quantifier": "for all field strengths, wavelengths, durations, waists, polarisation angles, start and focus positions (direction not within the antiparallel cut-off), all times and positions, in exact arithmetic", "why_tests_cant": "The formula has 29 terms whose relative size depends on position and focusing; a wrong coefficient changes results by less than sampling noise at most points a test would try.", "anchors": ["Source/Physics/Fields/EMField/FocusingField.cpp:5-88", "Source/Physics/Fields/EMField/GaussianEMField.cpp:1-56", "Source/Physics/Fields/EMField/PlaneEMField.cpp:1-35"]}
{"id": "C110", "title": "Which plane waves obey Maxwell's equations", "statement": "Every plane wave field of the code is differentiable and divergence-free in E and B. It satisfies the induction laws (curl E = -dB/dt, curl B = dE/dt) at all times and positions if and only if the sine of its polarisation angle is zero: for any other angle the simulated field is not an electromagnetic wave.", "quantifier": "for all non-zero field strengths and wavelengths, all polarisation angles and all propagation directions outside the antiparallel cut-off, in exact arithmetic", "why_tests_cant": "A test compares numbers with numbers of the same formula; that the formula violates Maxwell's equations for every polarisation angle but multiples of pi needs derivatives at all points.", "anchors": ["Source/Physics/Fields/EMField/PlaneEMField.cpp:1-35"]}
{"id": "C111", "title": "Histories of single particles and lists in the output file", "statement": "If OutputManager::SingleParticle returns for a particle with as many stored momenta as positions, the particle is tracked and the file holds under Particles/Single/name its positions, momenta and times multiplied by the reference values of the unit system (or by 1) and its gamma values unscaled, in order; ListTracks does the same for particle m of a list under Particles/ParticleList/name/m; ListProperties writes one row (index, energy, position) per particle under the name of the list. An untracked particle ends the program with status 1; fewer momenta than positions are read out of bounds.", "quantifier": "for all particles, lists, names, unit systems, states of the output manager and behaviours of the HDF5 existence query; completion on a new file for all one-component names", "why_tests_cant": "The data sets depend on histories of any length and on what was written before; tests see single files.", "anchors": ["Source/IO/Output/OutputManager.cpp:61-118", "Source/IO/Output/OutputManager.cpp:120-186", "Source/IO/Output/OutputManager.cpp:188-208"]}
{"id": "C112", "title": "Life of the network process", "statement": "G4CascadeTF as an object with the calls LoadGraphs, SetTimeLag, GetMeanFreePath, PostStepDoIt and test. After any sequence of calls the destructor is undefined (the positron graph pointer is never set). Without a load, steps and tests are undefined; with a missing or short in_meta.dat at every load, steps stay undefined. After a load that returns, with complete parameter files, a step hands the track, divided by the parameters (by one more than the parameter for the transverse momenta) and with the time taken relative to the lag, to the three graphs and proposes what they yield; other calls change only the lag. test() draws exactly the random numbers of a step on the same input. Every completed load leaves three TensorFlow sessions open. With two or more mixture components, mean, width and skew of the first one have no influence. A load that fails half way is not undone.", "quantifier": "for all call sequences, file contents, graphs, session failures, tracks, random engines and arithmetics (first component and lag: exact reals)", "why_tests_cant": "Needs TensorFlow and Geant4 to run at all; undefined behaviour in a destructor often goes unnoticed; all call sequences and all file contents are quantified.", "anchors": ["Source/Geant/G4CascadeTF.cpp:12-165", "Source/Geant/G4CascadeTF.cpp:167-245", "Source/Geant/G4CascadeTF.hh:28-49", "Source/Geant/TensorflowGraph.cpp:7-68", "Source/Tools/MCTools.cpp:22-49"]}
{"id": "C113", "title": "Deleting the output manager", "statement": "Whatever calls an output manager has received, as long as they succeeded, its stores went through existing pointers; its destructor frees each event buffer that the tables still point to exactly once, and what stays allocated is exactly the rest: the buffers that were there before the last InitSource, those replaced by a second store of the same event, and one per call of ListProperties. The handle of the last group is the exception: AddGroup for a group that exists frees the handle and keeps the dangling pointer, so that after two calls of ListProperties for one list (both data sets are written) the next AddGroup or the destructor is a double free. Without the list calls and with names that are not empty or made of slashes this cannot happen, and a run of the main program that completes its output deletes the output manager without error and without leaking an event buffer; with a histogram called \"/\" in last place the output is complete and the destructor fails.", "quantifier": "all sequences of calls, all return codes of the library (deletion: the two conventions), all arithmetic, all input files and random streams", "why_tests_cant": "Leaks and double frees at exit depend on the whole sequence of calls and on names in the input file; a test with a sanitizer sees the sequences it runs.", "anchors": ["Source/IO/Output/OutputManager.cpp:40-59", "Source/IO/Output/OutputManager.cpp:188-314", "Source/IO/Output/HDF5Output.cpp:22-42", "Source/Exec/QEDCASC.cpp:262-296"]}
{"id": "C114", "title": "The INI parser stays within its character arrays", "statement": "ini_parse_stream with fgets works in place on a line array of 200 characters and two arrays of 50 (section and previous name). Whatever bytes the file holds (NULs, lines of any length, unterminated brackets), whatever the handler does and whatever the line array holds at first, parsing ends without reading or writing outside these arrays, and the calls of the handler and the returned line number are those of the text-level description (C63-C66, C87, C88); a written configuration arrives unchanged. A section seen by the handler never has more than 49 characters. With a line array of 199 characters it would not be so.", "quantifier": "all file contents, all handlers and user states, all initial contents of the line array", "why_tests_cant": "Overruns happen at particular lengths and positions of particular characters; there are 256^n files.", "anchors": ["Source/IO/Input/ini.cpp:34-76", "Source/IO/Input/ini.cpp:79-232"]}
{"id": "C115", "title": "Parsing a string is parsing a file with the same characters", "statement": "ini_parse_string on a NUL-terminated string does exactly what ini_parse does on a file with these characters: the same calls of the handler in the same order, the same return value; it reads nothing after the NUL. Characters without a NUL are read past their end. A file with a NUL in it is not treated alike: the file parser goes on with the next line, the string parser stops.", "quantifier": "all strings, all memory behind the NUL, all handlers, all initial contents of the line array", "why_tests_cant": "The two readers (fgets and ini_reader_string) are separate code; agreement on every split into lines and at every length cannot be tested exhaustively.", "anchors": ["Source/IO/Input/ini.cpp:215-268"]}
{"id": "C116", "title": "Random draws in double precision", "statement": "With IEEE doubles: RandDouble(0, high) returns a double x with 0 <= x < high for 2^-1022 < high <= 2^1020; RandDouble(low, high) is never below low and exceeds high by at most 2^-51 of the larger limit; it can return high itself. The argument of the logarithm in a drawn optical depth lies in [2^-53, 1], so the depth is a finite non-negative number of at most 40, within the accuracy of the logarithm plus 2^-52 of -ln(1-u). RandDiscrete returns an index from 1 to n-1 and from index 2 on only entries of positive weight, if the rounded total lies between 2^-1022 and 2^1020; below that it can return 0.", "quantifier": "all engines whose canonical number is a double in [0,1), all limits and weights in the stated ranges, all implementations of the logarithm with the stated accuracy", "why_tests_cant": "The exceptional draws have probability 2^-53 or less; no test sees them.", "anchors": ["Source/Tools/MCTools.cpp:10-14,28-49", "Source/Particles/Particle.cpp: Particle::InitOpticalDepth"]}
{"id": "C117", "title": "Energies and speeds in double precision", "statement": "With IEEE doubles, for momentum components up to 2^490 and masses from 2^-10 to 2^400: the computed gamma is at least 1, the energy at least the mass and beta between 0 and 1. For the program's leptons (mass 1) gamma has relative error at most 2^-50, every velocity component used by the pusher is at most 1 and the speed squared at most 1 + 2^-48. Directions have components of at most 1 and length squared within 2^-49 of 1; photon energies have relative error at most 2^-50. A fast lepton's beta is exactly 1 (so 'below the speed of light' is false in double precision).", "quantifier": "all particles with momenta and masses in the stated ranges", "why_tests_cant": "Rounding errors depend on all bits of the inputs; 2^192 momenta cannot be enumerated.", "anchors": ["Source/Particles/Lepton.cpp: GetGamma, GetEnergy, GetBeta", "Source/Particles/Photon.cpp: GetEnergy", "Source/Particles/Particle.hh: GetDirection", "Source/Physics/ParticlePushers/ParticlePusher.cpp: PushPosition"]}
{"id": "C118", "title": "Field-free motion in double precision", "statement": "With IEEE doubles, where both fields are zero any number of Lorentz steps leaves the values of the momentum components, and so gamma, exactly as they were; only the sign of a zero may change.", "quantifier": "all numbers of steps, all finite time steps up to 2^1000, all momenta up to 2^490, masses from 2^-10 to 2^400, finite charges, all fields that are zero (either sign)", "why_tests_cant": "Tests run a few steps with a few momenta.", "anchors": ["Source/Physics/ParticlePushers/ParticlePusher.cpp: PushParticle", "Source/Physics/ParticlePushers/LorentzPusher.cpp: PushMomentum"]}
{"id": "C119", "title": "Histogram counts are exact in double precision", "statement": "With IEEE doubles, adding any values (also NaN and infinities) to a histogram whose bins hold whole numbers that stay within 2^53 succeeds and rounds nothing: every value between the outer centres is counted exactly once, in a bin whose centre is nearest up to a factor 1 + 2^-51, and each bin grows by exactly the number of values counted in it. A bin at 2^53 no longer grows.", "quantifier": "all histograms with increasing finite centres, all lists of doubles", "why_tests_cant": "A loss of counts appears only after 2^53 additions; wrong bins only for values within rounding distance of a midpoint.", "anchors": ["Source/IO/Output/Histogram.cpp: Histogram::AppParticle, Fill", "Source/Tools/Numerics.cpp: Numerics::ArrayIndex"]}
{"id": "C120", "title": "Interpolation error in double precision", "statement": "With IEEE doubles, Interpolate1D inside a table returns a finite double within 2^-49 times the larger of the two neighbouring entries (plus 2^-500) of the straight line through them, and exactly the entry at a node. The result can lie slightly outside the interval of the two entries.", "quantifier": "all tables with increasing abscissae at least 2^-500 apart and entries up to 2^400, all queries inside", "why_tests_cant": "Rounding errors depend on all bits of the five numbers involved.", "anchors": ["Source/Tools/Numerics.cpp: Numerics::Interpolate1D"]}
{"id": "C121", "title": "The units are the natural ones and the constants agree", "statement": "The unit of length is the reduced Compton wavelength, unit of time times unit of energy is hbar (relative error 3e-8), the unit of electric field gives a charge the unit of momentum in one unit of time (exactly), likewise for the magnetic field at speed c; alpha, the Compton wavelength and the Schwinger field in UnitsSystem.hh agree with e, m, c, hbar, eps0 and pi to 1e-9, 1e-9 and 3e-8; pi is right to 1e-12. Geant's nanosecond, millimetre and MeV convert so that light travels at speed 1.", "quantifier": "all unit systems the constructor accepts", "why_tests_cant": "A wrong digit in a constant changes no qualitative behaviour; only the comparison with the definitions of the constants shows it.", "anchors": ["Source/Tools/UnitsSystem.hh:75-86", "Source/Tools/UnitsSystem.cpp:22-45"]}
{"id": "C122", "title": "The copy of the parameters in input-check.txt", "statement": "Whether the check file is written, or can be opened, has no influence on the parameters. After a successful start it contains, in this order, the general block, the field block (if any), one block per particle source, the physics block and one block per histogram, one line per value. Two input files give the same check file if and only if their parameters agree as shown, except for the amplitude of a plane wave, the polarisation of the Gaussian and focused beams, the energy distribution of a source and the type of a histogram, which are not in the file: 'the check file records the parameters of the run' is false. A file with unknown units leaves it empty, one with an unknown field type has only the general block handed to the stream.", "quantifier": "all input files, all formats of numbers without blanks and line breaks, names without line breaks, any arithmetic", "why_tests_cant": "That a text determines the parameters is a statement about all pairs of inputs.", "anchors": ["Source/IO/Input/FileParser.cpp:13-20,72-81,102-111,118-127,139-152,164-177,190-198,226-243,276-286"]}
{"id": "C123", "title": "The shipped table files are read as they are written", "statement": "If the directory named by the environment variable contains the table files of the repository, loading succeeds, whatever the memory contained before, and every array holds exactly the numbers written in the files, in order and in full: 500 emission rates, 100 x 100 sampling entries with 100 lowest values of chi, 1301 pair rates, 100 x 100 split entries with their two axes. Nothing but white space is left over in any file.", "quantifier": "any arithmetic (the conversion from decimal to number is a parameter), any directory, any other content of the disk, any previous memory", "why_tests_cant": "It fixes all 22 thousand entries for every arithmetic and every memory content; a test compares a few entries on one machine.", "anchors": ["Tables/hsokolov.table", "Tables/ksi_sokolov.table", "Tables/chimin.table", "Tables/pairprod.table", "Tables/e_split.table", "Tables/epsilon.table", "Tables/log_chi.table", "Source/Physics/Processes/PhotonEmission.cpp: LoadTables, CalculateChi", "Source/Physics/Processes/NonLinearBreitWheeler.cpp: LoadTables, CalculateSplit"]}
{"id": "C124", "title": "Photon emission with the shipped tables", "statement": "The sampling tables are cumulative distributions: rows non-decreasing, ending with 1, eta from 1e-5 to 10, chi from its lowest value to eta/2. Hence the stochastic model never emits a photon of more than the emitter's energy for eta >= 1e-5, and does not end the program for eta up to 8.69; for eta of 8.7 and more it never emits: it counts down the optical depth and then ends the program. The expected number of photons per step lies between those of h = 0.3459 and of the classical limit 0.7193 for every eta below 10; at eta = 10 the first entry of the table is used instead of the last. The continuous models: photon energies at most the emitter's (semi-classical), at most e^5 eta times it (classical); in the classical model a draw of 0.9999 exceeds the emitter's energy for every eta from 1/5 on, so 'no photon has more energy than its emitter' is false there.", "quantifier": "exact reals, all electrons, fields, engines with draws in [0,1), time steps, event lists", "why_tests_cant": "The bound must hold for every eta, every draw and the whole table.", "anchors": ["Source/Physics/Processes/PhotonEmission.cpp: CalculateEta, LoadTables, CalculateChi", "Source/Physics/Processes/StochasticEmission.cpp: Interact", "Source/Physics/Processes/ContinuousEmission.cpp: Interact", "Tables/hsokolov.table", "Tables/ksi_sokolov.table", "Tables/chimin.table"]}
{"id": "C125", "title": "Pair production with the shipped tables", "statement": "For 1/199 <= chi <= 95 every draw gives the positron a fraction between 0 and 1.0000000000000007 of the photon's energy, so that the energies of the pair add up to that of the photon within 1.4e-15 (if both shares exceed a rest energy). For 110 <= chi <= 883 every draw below 0.0006 gives a negative fraction, and the pair has more energy than the photon: conservation of energy is refuted with the shipped tables. Up to chi = 883 the program is not ended; from 885 on no photon ever becomes a pair, the program ends instead. For 1e-5 <= chi < 1e8 the expected number of pairs per step is positive and at most that of a logarithmic rate of -0.695.", "quantifier": "exact reals, all photons, fields, engines with draws in [0,1), time steps, event lists", "why_tests_cant": "The sign of the fraction depends on the row; tests with random draws see it once in some thousand pairs at extreme chi.", "anchors": ["Source/Physics/Processes/NonLinearBreitWheeler.cpp: Interact, LoadTables, CalculateSplit", "Source/Tools/Numerics.cpp: ClosestPoints", "Tables/e_split.table", "Tables/epsilon.table", "Tables/log_chi.table", "Tables/pairprod.table"]}
{"id": "C126", "title": "Memory safety of the processes with the shipped tables", "statement": "A process with the shipped tables never reads outside an array: each call returns or ends the program with code -1, whatever the particle, the field values (also NaN) and the draws. A run of the simulation with such processes and enough capacity of the list returns or ends with code -1, and never goes beyond the capacity.", "quantifier": "any arithmetic for the calls, exact reals for the run; all particles, fields, engines, lists, worlds", "why_tests_cant": "NaN and extreme values of eta and chi are not reached by tests; safety is about all of them.", "anchors": ["Source/Physics/Processes/PhotonEmission.cpp: LoadTables, CalculateChi", "Source/Physics/Processes/NonLinearBreitWheeler.cpp: LoadTables, CalculateSplit", "Source/Exec/QEDCASC.cpp: main", "Source/Tools/Numerics.cpp: Interpolate1D, ClosestPoints"]}
{"id": "C127", "title": "A classical run with the shipped tables always completes", "statement": "With the shipped tables, classical emission, no pair production, any field, one output source of n = 1..536 particles of any species and histograms with distinct plain names, a serial run completes whatever is drawn: no process ends the program, no array is exceeded, nothing throws in the output. The file then holds n rows of 8 numbers for the primaries, n rows for the species of the source, none for the other lepton, and each histogram with the configured number of bins.", "quantifier": "exact reals; all engines with draws in [0,1), all configurations of that kind, all states of the generator, any number of steps given time for them", "why_tests_cant": "Completion must hold for every draw and every configuration; the exits of the processes depend on rare values.", "anchors": ["Source/Exec/QEDCASC.cpp: main", "Source/Physics/Processes/ContinuousEmission.cpp: Interact", "Source/IO/Output/OutputManager.cpp", "Source/Particles/ParticleList.cpp"]}
{"id": "C128", "title": "The example of the README", "statement": "example/example.ini is read as the configuration its text describes (units SI, step 0.01 fs, end 100 fs, Gaussian field, 100 electrons, classical emission, two histograms). An event then makes exactly 10000 passes, in exact arithmetic and also in double precision; the histogram \"start\" is filled once with the first list and \"end\" once with the list after the last pass. Run with the shipped tables the program completes with 100 primaries, 100 electrons, no positrons and two histograms of 400 bins, provided H5Oget_info_by_name reports success for missing objects; with the documented behaviour of that function the example never completes.", "quantifier": "input: any arithmetic; number of passes: exact reals and IEEE doubles, all worlds with that time step; run: all engines with draws in [0,1), all states of the generator, any other files", "why_tests_cant": "A test runs the example with one seed on one machine; the 10000 passes depend on the rounding of 10000 additions.", "anchors": ["example/example.ini", "README.md", "Source/IO/Input/FileParser.cpp", "Source/Exec/QEDCASC.cpp: main", "Source/IO/Output/HDF5Output.cpp"]}
{"id": "C129", "title": "The Python example", "statement": "example/QEDCascPy_example.py asks beamOn for two threads. In a build without OpenMP it therefore simulates nothing: all three tables it plots are empty. With OpenMP the loop over 1000 electrons is entered with two threads, the semiclassical force and emission with sample fraction 1/10. Each event makes exactly 2000 passes, in exact and in double-precision arithmetic. With one thread and the shipped tables the script completes with 1000 primaries, 1000 electrons and at most two million photons, unless the program ends itself with code -1.", "quantifier": "without OpenMP: any arithmetic, engine, tables and state; passes: all worlds with that time step; one thread: exact reals, all engines with draws in [0,1), all states", "why_tests_cant": "A test runs one build with one seed; the bound on the photons and the outcome are for every draw.", "anchors": ["example/QEDCascPy_example.py", "Source/Python/RunManager.cpp: beamOn, getInput, getElectrons, getPhotons", "Source/Python/QEDCascPy-Bindings.cpp"]}
{"id": "C130", "title": "A particle with a NaN momentum stays in the event as a ghost", "statement": "In double precision, with any maths library: a living particle with a NaN in one momentum component has after one step of any of the three pushers, in any field, a position of three NaNs (with mass also a momentum of three NaNs); it stays alive, keeps name, mass, charge, weight and its place in the list to the end of the run; no process called on it adds a particle to the event or kills it; a run whose particles are all like that creates nothing; no histogram counts it, only the number of entries goes up. Besides pairs made below threshold (C42), such particles come from every massive particle at rest moved by the Landau or modified Landau pusher, in any field, even none.", "quantifier": "all maths libraries, engines, fields, time steps, particles, processes, tables, lists, histograms and run lengths; binary64", "why_tests_cant": "A test would have to look for NaNs deliberately, and with one position of the NaN, one field and one pusher; the run completes without an error, and sums over the output turn into NaN only when someone sums.", "anchors": ["Source/Physics/ParticlePushers/ParticlePusher.cpp:12-79", "Source/Physics/ParticlePushers/LandauPusher.cpp:9-29", "Source/Physics/ParticlePushers/ModifiedLandauPusher.cpp:10-38", "Source/Physics/Processes/StochasticEmission.cpp:16-53", "Source/Physics/Processes/ContinuousEmission.cpp:21-64", "Source/Physics/Processes/NonLinearBreitWheeler.cpp:20-47", "Source/IO/Output/Histogram.cpp:39-116"]}
{"id": "C131", "title": "Electrons at rest before the field arrives never emit", "statement": "In double precision, with any maths library: a massive particle at rest when stochastic emission looks at it gets the optical depth NaN, whatever the field; from then on neither stochastic emission nor pair creation ever does anything to it or uses a random number for it, whatever its momentum and the field. Consequently in every run with the Lorentz pusher, stochastic emission and possibly pair creation, leptons that start at rest where the field is zero during the first step emit nothing for the rest of the run, however strong the field becomes: the final list has as many particles as the first, and none was lost.", "quantifier": "all maths libraries, engines, fields that vanish at the three times of the first step, steps up to 2^1000, tables, sample fractions, lists of leptons at rest, end times and histogram settings; binary64", "why_tests_cant": "The run completes and the trajectories are right; the missing photons look like a weak field. A test starts its electrons with momentum (or compares with a run of the same code).", "anchors": ["Source/Physics/Processes/PhotonEmission.cpp:23-34", "Source/Physics/Processes/StochasticEmission.cpp:16-53", "Source/Tools/ThreeVector.hh:60-63", "Source/Particles/Particle.cpp:51-64", "Source/Exec/QEDCASC.cpp:202-257"]}
{"id": "C132", "title": "Runs with quantum emission and the shipped tables complete below eta 8.69", "statement": "With the shipped tables and draws that doubles below 1 can take, stochastic emission never gives a photon more energy than the emitter has (gamma, in units of its mass), however small eta is, also below the first row of the table; so an emission leaves a momentum of at most the larger of the old one and 1. Hence in every run of N steps of electrons, positrons and photons with momenta up to P, under the Lorentz pusher and any number of stochastic, continuous or classical emission processes, in fields of at most A and B: if sqrt(1 + pmax^2) (A + B) <= 8.69 with pmax = max(P, 1) + N dt (A + B), no process ends the program, the run completes, and no massive particle ever has a momentum above pmax.", "quantifier": "all engines with draws in [0, 1 - 1e-16], fields within the bounds, lists of processes, sample fractions and energy thresholds, lists of particles, numbers of steps, histograms; exact real arithmetic", "why_tests_cant": "Whether a run can reach the exit of the table lookup depends on the whole trajectory and on all draws; and the energy of photons of electrons with eta below 1e-5 comes from extrapolating the table, where tests have no reference.", "anchors": ["Source/Physics/Processes/StochasticEmission.cpp:16-53", "Source/Physics/Processes/PhotonEmission.cpp:36-110", "Source/Physics/Processes/ContinuousEmission.cpp:21-64", "Tables/hsokolov.table", "Source/Physics/ParticlePushers/LorentzPusher.cpp", "Source/Exec/QEDCASC.cpp:202-257"]}
{"id": "C133", "title": "The main program with quantum emission, and the README example with it", "statement": "With the shipped tables, one source written to the file, quantum emission without pair production, draws that doubles below 1 can take, fields up to A and B, source energies up to P and N steps to the end time: if sqrt(1 + pmax^2) (A + B) <= 8.69 for pmax = max(P, 1) + N dt (A + B), the program completes (given a HDF5 whose H5Oget_info_by_name reports success for missing objects), with one row per primary, one row per electron or positron of the source, and every histogram with its bins. example.ini with radiation_model = Quantum meets the condition for normal deviates up to 500: the run gives 100 primaries, 100 electrons, no positrons and two spectra of 400 bins.", "quantifier": "all engines with draws in [0, 1 - 1e-16] and as many normals as asked for, configurations of one source with 1 to 536 particles, any species, field and histograms, all generator states, all files; exact real arithmetic", "why_tests_cant": "No seed that is tried can show that no other seed drives an electron over the end of the table, where the program ends itself and loses all results.", "anchors": ["Source/Exec/QEDCASC.cpp: main", "Source/Particles/SourceGenerator.cpp", "Source/Physics/Processes/StochasticEmission.cpp", "example/example.ini", "Tables"]}
{"id": "C134", "title": "The test program for pair production makes no pair", "statement": "Tests/BreitWheelerTest.cpp sends one photon of energy 1000 head on against a plane wave of amplitude 1, which gives chi = 1000, beyond the end of the shipped split table. With the table files of the repository (exact arithmetic) it therefore makes a pair for no draw: if the optical depth drawn for the photon is at least d = 0.1 * alpha * 10^-1.23028883219917 (between 4.1e-5 and 4.7e-5) the program returns 0 with the photon alive, its depth reduced by d, and an empty list; otherwise it ends with code -1. Every draw up to 4e-5 ends it, every draw from 4.7e-5 on lets it return. In any arithmetic these are the only two outcomes with these files; without QED_TABLES_PATH the program has undefined behaviour, without one of the four files it ends with code 1.", "quantifier": "for every random engine and state (draws below 1), every directory that contains the shipped files, every content of uninitialised memory; the last part for every arithmetic", "why_tests_cant": "a run of the test returns 0 in all but about one of 23000 cases and checks nothing, so it cannot show that the branch it is meant to exercise is unreachable", "anchors": ["Tests/BreitWheelerTest.cpp:8-17", "Source/Physics/Processes/NonLinearBreitWheeler.cpp:20-62", "Tables/pairprod.table:802", "Tables/log_chi.table"]}
{"id": "C135", "title": "The main program has no undefined behaviour on well-sized input", "statement": "A run of qedcasc, up to and including the closing of its output file, never reads or writes outside an array, follows a null pointer, reads a value that was never set, or frees a handle twice, provided that: the tables that are loaded have matching sizes (the shipped ones have); no histogram has a name that is empty or consists of slashes, nor 2^31 bins or more; and no source with output ends with 2^29 or more particles of one species, which 536 or fewer primaries per source ensure, because an event holds at most a million particles. The condition on the names is necessary: a run whose input has a histogram without a name never comes to its end, it can only stop earlier or free the group handle twice.", "quantifier": "for every arithmetic, every text in every file, every command line, every sequence of random numbers, every content of uninitialised memory, every sign convention of the HDF5 status code, every number of steps; no hypothesis that the run completes", "why_tests_cant": "out-of-bounds reads show only in a sanitised build and only for the inputs that were tried; this covers every text of the input file, every physics model and every random stream at once", "anchors": ["Source/Exec/QEDCASC.cpp:34-303", "Source/IO/Output/OutputManager.cpp:4-420", "Source/IO/Output/Histogram.cpp:3-217", "Source/IO/Output/HDF5Output.cpp:1-79", "Source/Physics/Processes/StochasticEmission.cpp", "Source/Physics/Processes/NonLinearBreitWheeler.cpp"]}
{"id": "C136", "title": "With more and more steps the simulated orbit converges to the solution of the equation of motion", "statement": "Take a live massive particle and fields that are bounded and Lipschitz continuous in time and position, and any solution of x' = v, p' = q(E + v x B) starting like the particle. After n pushes of length dt by the Lorentz pusher (with dt L <= 1, L the Lipschitz constant made from the field bounds) position and momentum lie within 5/2 (2 + |q|(A+B)) (exp(2 L n dt) - 1) dt of that solution. So with n steps for a fixed time the result tends to the solution as n grows. The static field and the plane wave built by the constructors satisfy the field condition. In a static magnetic field along z the solution is the helix with cyclotron frequency q b / (m gamma), so the pushed particle stays that close to it, and the length of its momentum drifts by no more than that bound.", "quantifier": "all live massive particles, bounded Lipschitz fields, solutions, step lengths, numbers of steps; all static fields and plane waves; exact reals", "why_tests_cant": "A test compares a few step sizes with a reference orbit. Convergence is a limit over all step sizes and holds for every field and initial state.", "anchors": ["Source/Physics/ParticlePushers/LorentzPusher.cpp", "Source/Physics/ParticlePushers/ParticlePusher.cpp", "Source/Physics/Fields/EMField/StaticEMField.cpp", "Source/Physics/Fields/EMField/PlaneEMField.cpp"]}
{"id": "C137", "title": "A run with MPI is the merger of serial runs", "statement": "Take an input file with one source that is written, and histograms with different simple names. If the events can be simulated on every rank, so can they in serial runs that start from the same generator states. The communicating ranks then come to an end in whatever order sends, receives and barriers happen and whatever the library buffers. No call fails. Each table of the file contains the rows of the tables of the serial runs, rank after rank. Each histogram contains the sums of the bins of the serial runs, added in some order (the exact sums in exact arithmetic), on the axis of the serial run. No track is written. For a single rank the tables and histograms are those of the serial run.", "quantifier": "all numbers of ranks, input files, disks, generator states, tables, arithmetics and schedules, up to 2^28 rows in each table (in any case up to 268 events together)", "why_tests_cant": "Schedules, numbers of ranks and random numbers cannot be enumerated, and a test compares two programs for a few of them.", "anchors": ["Source/Exec/QEDCASC.cpp: main with USEMPI", "Source/IO/Output/OutputManager.cpp: OutputEventsMPI, OutputHistMPI"]}
{"id": "C138", "title": "Threaded runs are serial runs with rearranged random numbers", "statement": "In the build with OpenMP the events of a source run at the same time and share the random number generator, the sample counter, the histograms and the output manager. Let each random draw, each step of the sample counter, each AppParticle and each StoreSource be indivisible, and let those of different events follow each other in any order. If such a run without tracking completes, then the file it writes is the file of a serial run whose generator delivers the same random numbers in another order (the same normal deviates for each sampled quantity of a source, the same uniform numbers, rearranged). So what holds for the files of all serial runs holds for those of all threaded runs. The serial run itself, complete or failing, is one of the threaded runs, and so is the one with the events in any other order. The file is not determined by the input and the generator: the row of an event may hold another event's sample.", "quantifier": "all interleavings, input files, disks, numbers of events, sources and histograms, generators, tables and arithmetics", "why_tests_cant": "The interleavings of the accesses of all events cannot be enumerated, and two runs with threads are not comparable number by number.", "anchors": ["Source/Exec/QEDCASC.cpp: main with USEOPENMP", "Source/Particles/SourceGenerator.cpp: GenerateList", "Source/Tools/MCTools.cpp", "Source/IO/Output/Histogram.cpp: AppParticle", "Source/IO/Output/OutputManager.cpp: StoreSource"]}
{"id": "C139", "title": "Threads add no failures and no undefined behaviour", "statement": "In the build with OpenMP (accesses as in C138), whatever the order of the accesses: no sequence of accesses is endless; if no tracks are written and every histogram has fewer than 2^31 bins, then whatever a threaded run ends with (a file, an exit code, an exception, undefined behaviour) some serial run ends with, whose generator delivers numbers from the same ranges; so where all serial runs complete, all threaded runs complete, with files that have every property common to the files of the serial runs. The README example, with classical and with quantum emission, completes under every schedule with 100 primaries, 100 electrons, no positrons and two spectra of 400 bins. With or without tracks, a threaded run including the destruction of the output file has no undefined behaviour if the tables have consistent sizes, no histogram has an empty or slash-only name or 2^31 bins, and no output source can end with 2^29 particles of a species; in particular with the shipped tables and at most 536 particles per output source.", "quantifier": "all interleavings, input files, disks, arguments, generators, tables, numbers of events, sources and histograms; any arithmetic (exact reals for the README example)", "why_tests_cant": "A schedule that reads outside an array or fails where the serial program does not may be one of astronomically many.", "anchors": ["Source/Exec/QEDCASC.cpp: main with USEOPENMP", "Source/Particles/SourceGenerator.cpp: GenerateList", "Source/IO/Output/Histogram.cpp: AppParticle", "Source/IO/Output/OutputManager.cpp: StoreSource, StoreTrack, OutputEvents"]}
{"id": "C140", "title": "The Python module on several threads shows what a serial session with the same random numbers in another order shows", "statement": "In the Python module built with OpenMP, whatever the number of threads given to each beamOn (at least one), however the events are dealt out to the threads and however their draws of random numbers and their steps of the sample counter interleave, the session shows the caller exactly what a session of the module without OpenMP shows in which each beamOn has one thread and the generator delivers the same random numbers in another order; if it fails, it fails as some such session does. The four tables of a beamOn therefore hold the rows of exactly the requested number of serially simulated events. Every interleaving comes to an end; the session in which the first thread does all the work is one of the possible ones; with one thread the outcome is unique and is that of the module without OpenMP; with two threads the tables are not determined by the calls and the seed. The shipped Python example with its two threads, in exact arithmetic with the shipped tables, completes with 1000 primaries, 1000 electrons and at most two million photons, or ends the process with code -1.", "quantifier": "for all sequences of calls with at least one thread per beamOn, generators, tables, arithmetics, shares of the events and interleavings of the shared accesses", "why_tests_cant": "the outcomes depend on the scheduling of threads, of which a test sees one; the number of interleavings is not bounded, and the comparison is with a run of another generator that no test can set up", "anchors": ["Source/Python/RunManager.cpp: beamOn with USEOPENMP, getInput, getElectrons, getPositrons, getPhotons", "Source/Particles/SourceGenerator.cpp: GenerateList", "Source/Tools/MCTools.hh: static generator", "example/QEDCascPy_example.py"]}
{"id": "C141", "title": "Threaded runs with tracks are serial runs up to the numbering of the tracks", "statement": "In the build with OpenMP (accesses as in C138, StoreTrack indivisible too), with tracking on or off and whatever the order of the accesses: if a run completes, then a serial run whose generator delivers the same random numbers in another order completes, and its file has the same groups and data sets with the same contents, except that the tracks may be numbered differently: there is a permutation such that the Position, Momentum, Time and Gamma data sets of track m of the threaded file are those of track sigma(m) of the serial file. So everything that holds for the files of all serial runs and does not depend on the numbering of the tracks holds for the files of all threaded runs. The failures are the same too: if no histogram has 2^31 bins or more, then whatever exit code, exception or undefined behaviour a threaded run ends with, some serial run ends with; so where all serial runs complete, all threaded runs complete.", "quantifier": "all interleavings, input files with and without tracking, disks, numbers of events, sources and histograms, generators, tables and arithmetics", "why_tests_cant": "The interleavings cannot be enumerated, and the tracks of two runs with threads cannot be paired without knowing which serial run to compare with.", "anchors": ["Source/Exec/QEDCASC.cpp: main with USEOPENMP", "Source/IO/Output/OutputManager.cpp: StoreTrack, OutputEvents", "Source/IO/Output/HDF5Output.cpp: AddGroup, AddArray1D, AddArray2D", "Source/Particles/SourceGenerator.cpp: GenerateList"]}
{"id": "C142", "title": "The tables of the output file balance: one primary per event, as many extra electrons as positrons, no more pairs than photons", "statement": "Let a run whose input file has one source with output, of n particles (n at most 536), complete. Then the table Primary has exactly one row for each event. In each event the tables Electrons, Positrons and Photons have together at least one and at most a million rows (the capacity of a particle list); if they have fewer than a million, then the number of positron rows minus the number of electron rows is the charge of the source's particles (0 for photons, -1 for electrons, +1 for positrons). There are never more positron rows (electron rows) than photon rows, not counting the primary, because every pair uses up a photon that stays in its table, even when the list is full. The sums hold for the whole tables as well. If pair production is off, the lepton tables hold the primaries only. All this also holds for runs on several threads, with or without tracks, whatever the interleaving, and, summed over the ranks, for runs with MPI.", "quantifier": "every arithmetic in which the charges -1, 0 and 1 (and, for statements about single events, the event numbers) are told apart, in particular exact reals and binary64 with any math library; every input file with one output source, every field, physics, table contents, random numbers, histograms with different simple names, every number of steps; every interleaving of the threads and of the MPI messages", "why_tests_cant": "A leptons' imbalance needs a rare path (a list that is full, a pair whose photon was lost) or a wrong row count in one table; a test run has one random sequence and cannot tell a missing positron from one that was not created.", "anchors": ["Source/Physics/Processes/NonLinearBreitWheeler.cpp: Interact", "Source/Particles/ParticleList.cpp: AddParticle", "Source/IO/Output/OutputManager.cpp: StoreSource, OutputEvents, OutputEventsMPI", "Source/Exec/QEDCASC.cpp: main"]}
{"id": "C143", "title": "In a static magnetic field the orbit error is of fourth order in the time step", "statement": "In a static magnetic field along z, one push by the Lorentz pusher leaves the exact helix by at most (1+g)(g/m)^4 dt^5, g = |q b|, from any position and momentum; after n pushes, position and momentum together are within (1/2) m (g/m)^4 (exp(2 (1+g) n dt / m) - 1) dt^4 of the helix, and the length of the momentum has drifted by no more than that; so for a given duration the bound falls with the fourth power of the number of steps.", "quantifier": "for all masses, charges, field strengths, initial positions and momenta, all numbers of steps and all time steps with dt (1 + g) <= m (exact real arithmetic)", "why_tests_cant": "An order of accuracy is a statement about all small time steps and all numbers of steps; a test compares a few step sizes at a few momenta. In a relativistic gyration the frequency depends on the momentum, so the order is not that of a linear problem.", "anchors": ["Source/Physics/ParticlePushers/ParticlePusher.cpp: PushParticle", "Source/Physics/ParticlePushers/LorentzPusher.cpp: PushMomentum", "Source/Physics/Fields/EMField/StaticEMField.cpp: GetField"]}
{"id": "C144", "title": "Rounding errors of the pusher in a static field", "statement": "Take an electron or positron (mass 1, charge 1 or -1 in the units of the program) and a static field, pushed n times by PushParticle in binary64 with a positive step h that is short against the field (h F <= 1, F = 1 + |E| + |B|). Then position and momentum stay finite, and the distance between the computed and the exactly computed position and momentum is at most 2^-43 M (exp(2 F n h) - 1) / (2 F h), where M = 2 + |x0| + |p0| + n h F, as long as that bound is at most 1 and M at most 2^40. Together with C136 and C143 this bounds the distance of the computed doubles from the solution of the equation of motion: by the error of the method plus the rounding errors, in a magnetic field by 1/2 b^4 (exp(2 (1 + |b|) n h) - 1) h^4 plus the rounding errors. The rounding errors do not vanish with the step: with the step 1e-18 in the field (1, 0, 0) the momentum of an electron that starts with (1, 0, 0) never changes, where the exact pushes slow it down in proportion to the time.", "quantifier": "all static fields, all starting positions and momenta of electrons and positrons, all numbers of pushes and all steps that meet the bounds, all C libraries (no function of the library is involved besides the correctly rounded square root)", "why_tests_cant": "A test compares a few orbits with a tolerance. A bound on the accumulated rounding errors over all fields, starting points and numbers of steps needs an error analysis of every operation.", "anchors": ["Source/Physics/ParticlePushers/ParticlePusher.cpp: PushParticle", "Source/Physics/ParticlePushers/LorentzPusher.cpp: PushMomentum", "Source/Physics/Fields/EMField/StaticEMField.cpp: GetField"]}
{"id": "C145", "title": "The rounding errors of free flight in double precision", "statement": "In double precision a photon keeps its momentum bit for bit whatever the field, and after n pushes with the step h its position is within n 2^-48 M of the straight line x0 + n h k/|k| with M = 2 + |x0| + n h, if h and |k| are at least 2^-400, the components are at most 2^490, M is at most 2^500 and n 2^-48 M is at most 1. An electron or positron in a static field of zero strength keeps the values of its momentum, and for 0 < h <= 1 its position is within n 2^-44 M of x0 + n h v with M = 2 + |x0| + |p0| + n h at most 2^40 and n 2^-44 M at most 1. So the errors grow at most linearly with the number of steps. They cannot be avoided: a photon at 2^53 that is pushed with the step 1/2 never moves.", "quantifier": "for all numbers of steps, all initial positions and momenta, all time steps within the stated ranges, all fields for photons, and all implementations of the mathematical library", "why_tests_cant": "A test compares a few flights with a tolerance; that the rounding errors of all flights of any length stay under an explicit linear bound is a statement about infinitely many runs, and the stalled photon appears only at distances no test uses.", "anchors": ["Source/Physics/ParticlePushers/ParticlePusher.cpp: PushParticle", "Source/Physics/ParticlePushers/LorentzPusher.cpp: PushMomentum", "Source/Physics/Fields/EMField/StaticEMField.cpp: GetField"]}
{"id": "C146", "title": "The counts of histograms in double precision, serial and with MPI", "statement": "In double precision every bin of every histogram that a completed serial run with one source writes is a whole number from 0 to 2^53. With MPI, every bin of the merged file is exactly the sum of the bins of the serial runs with the random numbers of the ranks, provided that sum is at most 2^53; so it does not depend on the order in which the ranks report. Beyond 2^53 it does: 2^53 + 1 + 1 gives 2^53 and 1 + 1 + 2^53 gives 2^53 + 2.", "quantifier": "for all inputs with one source with output, well-formed histogram names and at most 268 events altogether, all numbers of ranks, all random numbers, all orders of arrival, and all implementations of the mathematical library", "why_tests_cant": "The additions of the master happen in the order of arrival and double-precision addition is not associative; a test sees one order and small counts.", "anchors": ["Source/IO/Output/Histogram.cpp: Histogram::AppParticle, Fill", "Source/IO/Output/OutputManager.cpp: OutputHistMPI", "Source/Exec/QEDCASC.cpp: main with USEMPI"]}
{"id": "C147", "title": "Radiation reaction along an electric field", "statement": "In a static electric field of strength e along the direction of flight u, with any magnetic field along u, all three pushers change the momentum a u at a constant rate as long as it does not turn round: after n steps it is exactly (a + n dt c) u with c = q e - (2/3) alpha e^2 s, where s is 0 without radiation, 1 for the classical model and the Gaunt factor of |e| for the corrected model; the position advances along u by Simpson's rule for the speed. However many steps are made, the position is less than one step length from that of the relativistic motion with the constant force c. So the radiation reaction takes away the same momentum per time at every energy, and at most (2/3) alpha e^2. Above e = 3/(2 alpha) the classical model brakes a positron that the field pushes forward.", "quantifier": "for all numbers of steps, all time steps, masses, charges, directions, momenta and field strengths for which the momentum does not turn round; for the bound on the position and the comparison of the models, positive time steps, and for the bound c other than 0 (exact real arithmetic)", "why_tests_cant": "Continuum of fields, momenta and step counts; a test of the radiation reaction uses a field across the motion, where the effect grows with the energy.", "anchors": ["Source/Physics/ParticlePushers/ParticlePusher.cpp: PushParticle, PushPosition", "Source/Physics/ParticlePushers/LorentzPusher.cpp: PushMomentum", "Source/Physics/ParticlePushers/LandauPusher.cpp: PushMomentum", "Source/Physics/ParticlePushers/ModifiedLandauPusher.cpp: PushMomentum", "Source/Physics/Fields/EMField/StaticEMField.cpp: GetField"]}
{"id": "C148", "title": "A run without field is free flight from the first list to the last", "statement": "Let the field be zero everywhere, the pusher any of the three, and let the processes be quantum photon emission (in that zero field) and pair production, each on or off. Let every live particle of the list have a momentum other than zero and an optical depth that is not negative; leptons have a positive mass, photons none, and live photons are present only if pair production is off. Then over any number n of time steps the loop does not fail, draws no random number and neither makes, loses nor kills a particle. Each live particle keeps its momentum, its depth and all else but place and time; it is displaced by n dt times its velocity (the unit vector of the momentum for a photon, p / (gamma m) for a lepton), and its own time advances by n dt; dead particles are not touched. The whole run completes whenever the histograms can be filled, at N dt, the first multiple of the step not before the end time, with the random generator in its first state.", "quantifier": "all engines, worlds with zero field and those processes, step sizes (positive for the whole run), numbers of steps, lists within their capacity, particles as described, histogram times, total filling functions, end times; exact real arithmetic", "why_tests_cant": "A run in vacuum can be tested for a few particles and steps; that no list, step or end time leads to an emission, a draw from the generator or a bend of the path is a statement about all of them.", "anchors": ["Source/Exec/QEDCASC.cpp: main while(time<timeEnd)", "Source/Physics/ParticlePushers/ParticlePusher.cpp: PushParticle", "Source/Physics/Processes/StochasticEmission.cpp: StochasticEmission::Interact", "Source/Physics/Processes/NonLinearBreitWheeler.cpp: NonLinearBreitWheeler::Interact"]}
{"id": "C149", "title": "Moving leptons without field in double precision: every pusher, every process, whole runs", "statement": "In binary64, where the field is zero, take live leptons with finite charge, mass between 2^-10 and 2^400, momentum components of at most 2^490 of which one is at least 2^-400, and an optical depth from 0 to 2^1000. The quantum parameter that the emission processes compute is zero. A step of any of the three pushers leaves the value of the momentum as it is. No call of stochastic emission, continuous emission (quantum or classical) or pair production that returns adds a particle; the lepton keeps everything, its depth in value; and only continuous emission uses random numbers. For continuous emission this is because 0/0 is NaN and NaN is not above the lower limit of the energy. So every completed run ends with as many particles as it began with, none was turned away by a full list, and each lepton is at its place in the list with the momentum and depth it began with.", "quantifier": "all engines, lists of such leptons, step sizes up to 2^1000 (2^400 in the emission process), zero fields, tables, sampling fractions, energy limits, histogram times, filling functions, end times; all maths libraries with pow(0,2) = 0, pow(1,y) = 1, log(1) = 0 and pow(10,0.7193) finite; IEEE 754 binary64", "why_tests_cant": "A test runs a few leptons through one build; here continuous emission even depends on 0/0 being NaN. The statement is about all momenta, tables, numbers of steps and random numbers.", "anchors": ["Source/Physics/Processes/ContinuousEmission.cpp: ContinuousEmission::Interact", "Source/Physics/Processes/StochasticEmission.cpp: StochasticEmission::Interact", "Source/Physics/Processes/PhotonEmission.cpp: CalculateEta", "Source/Physics/ParticlePushers/LorentzPusher.cpp, LandauPusher.cpp, ModifiedLandauPusher.cpp: PushMomentum", "Source/Exec/QEDCASC.cpp: main while(time<timeEnd)"]}
