# Formal model of PX4/ecl in Rocq (Coq 8.16.1)

Build: `cd rocq && coq_makefile -f _CoqProject -o Makefile && make -j4`.  Properties: `properties.jsonl`; the
theorems of each are listed in `MANIFEST.json`.

## How the model is organised

* `rocq/theories/CBase.v` – C++ unsigned arithmetic (explicit `mod 2^k`); undefined behaviour is a distinct outcome (`UB`).
* `F32.v`, `F32More.v`, `F32Sign.v`, `F32Err.v` – `float` as Flocq `binary_float 24 128` (NaN, infinities, signed zero,
  round to nearest even), with error, sign and monotonicity lemmas.  `Scalar.v` – one interface for arithmetic with two
  instances, binary32 and `R`, so that one model serves both.  `RealGeom.v` – vectors, quaternions, rotations over `R`.
* `<X>Model.v` – model of one or more source files, every definition citing file and lines; `<X>Spec.v` or the
  "Specification" section of a `Props_` file – the vocabulary of the statements, independent of the model's functions;
  `<X>Proofs*.v` – lemmas; `Props_<X>.v` – the property theorems, non-vacuity `Example`s and `Print Assumptions`.
* Names: `Cnn_...` is a proved theorem of property Cnn; `_partial` would mean only part of the property (none at
  present); `_refuted` means the faithful model violates the natural expectation, with a concrete witness.  Property
  statements describe what the code does, so that an expectation the code violates appears in the English as "(a defect)".
* `tools/gen_cov.py`, `tools/gen_fusion.py`, `tools/gen_geo_tables.py` transcribe the machine-generated C++ (covariance
  prediction, observation Jacobians and gains, lookup tables) into `CovPredGen.v`, `FusionGen.v`, `GeoTables.v`.  The
  generated files are committed.  The generators are not trusted for the theorems that compare the text with an
  independent specification (F P F^T + Q, derivatives of sensor models, H P H^T + R, P H^T / S).

### Numbers
* Integers: `Z`/`nat` with explicit wrap-around where the code can wrap (time stamps are `uint64_t`, counters `uint8_t`/`uint32_t`).
* *binary32* where comparisons, NaN or rounding matter: sensor interface, range finder, GPS checks, vibration metrics,
  gates, variances, status; errors of accumulated sums are bounded where a statement is about real quantities.
* *R* where an algebraic law is stated (covariance, rotations, geodesy, prediction, resets); rounding is then not
  modelled, and the file header says so.
* *inputs* where a number only feeds a state machine (control modes): theorems quantify over all outcomes.

## Trusted base
* Coq's kernel.
* Axioms, as printed by `Print Assumptions` (each `Props_*.v` ends with it): a subset of
  `ClassicalDedekindReals.sig_forall_dec`, `ClassicalDedekindReals.sig_not_dec`,
  `FunctionalExtensionality.functional_extensionality_dep`, `Classical_Prop.classic` – all from the standard library.
  The control (C04, C14–C17, C25, C27–C29, C42–C46, C62–C68), ring buffer (C01–C03) and save/restore (C74, partly)
  theorems are closed under the global context or use only a part of these.
* The reading of the C++ text into the model.  No code is executed.
* The PX4 `matrix` and `mathlib` libraries are not part of /repo.  Their operations are modelled from their documented
  meaning: `Quatf`/`Dcmf`/`Eulerf` conversions and products, `AxisAnglef` exponential (with its 1e-10 threshold),
  normalisation, `wrap_pi`, `wrap_2pi` (`mathlib`), `Vector::max`, `constrain`, `uncorrelateCovarianceSetVariance`,
  `uncorrelateCovariance`, `makeRowColSymmetric`, `SparseVector`, zero-initialised matrices, sums accumulated from the left,
  `x /= s` as multiplication by `1/s` for vectors.
* C library functions: `sqrtf` is exactly rounded; `sinf`, `cosf`, `atan2f`, `asinf`, `expf` are the real functions
  (in `R` models) or uninterpreted functions (in polymorphic models: theorems hold for any implementation).

## What is modelled, and what is not
| source | model | covered | left out |
|---|---|---|---|
| EKF/RingBuffer.h | RingBufferModel, RingAllocModel | allocate, push, pop_first_older_than, get_newest/oldest, indices, empty reads; checked memory accesses and allocation failure (RingAllocModel) | copy of the payload type |
| EKF/estimator_interface.cpp | InterfaceModel, VibeModel | initialise_interface, set*Data for all sensors, sizing, down-sampling of mag/baro/airspeed, vibration metrics, at-rest, aiding bookkeeping | auxiliary velocity payload arithmetic, print functions (drag: DragModel) |
| EKF/imu_down_sampler.*, AlphaFilter | FilterModel | all | coning is the quaternion product (exact) |
| EKF/sensor_range_finder.* | RangeModel | all | sinf/cosf of the mounting pitch are arguments |
| EKF/gps_checks.cpp | GpsModel | gps_is_good, collect_gps, origin | map projection of the drift check: its output is an argument |
| EKF/ekf_helper.cpp l.686-733, gps_checks.cpp l.59-146, estimator_interface.cpp l.191-233 | OriginModel | the origin together with the states it moves (exact reals) | rounding double to float, magnetic table lookups, heading reset request |
| EKF/ekf.cpp l.54-99, 138-233 | RestartOutModel | effect of Ekf::reset and of the end of initialiseFilter on the output predictor | attitude of the start-up is a parameter |
| EKF/ekf.cpp l.235-255 | AttFloatModel | initialiseTilt parametric in the scalar (binary32; over the reals proved equal to PredictModel.tiltQuat, C95_same_start) | C library functions are parameters |
| EKF/ekf.cpp l.257-308, ekf_helper.cpp l.550-565, 1549-1563, utils.cpp l.3-25, 62-64, 90-107 | NanModel | prediction, state limits and yaw reset parametric in the scalar (used in binary32; over the reals proved equal to PredictModel / RotModel) | matrix::constrain with lower limit above the upper; C library functions are parameters |
| EKF/control.cpp, mag_control.cpp, flag parts of ekf_helper.cpp | ControlModel | the whole of controlFusionModes including nested start/stop/reset helpers, all timers and flags | numeric values (innovations, test results) are inputs |
| EKF/covariance.cpp | CovModel, CovPredGen, CovNoise, CovQuat | initialise, predict, fixCovarianceErrors, resets | – |
| EKF/vel_pos_fusion.cpp, ekf_helper.cpp fuse/measurementUpdate | VelPosModel, CovModel | gates, sequencing of axes, Kalman update, time stamps | – |
| EKF/control.cpp, ekf_helper.cpp, mag_fusion.cpp, optflow_fusion.cpp, terrain_estimator.cpp: the members `*_innov`, `*_innov_var`, `*_test_ratio` of velocity, position, height, auxiliary velocity, heading and flow | InnovModel | which operation writes which report, stops, rejected heading | airspeed, sideslip, drag, magnetometer reports are in FusionModel (Props_InnovFuse); badly conditioned heading update |
| EKF/ekf.cpp l.107-128 with everything it may call | EngineModel | composition of prediction, all fusions, resets, terrain and vision steps into one transition function, driven by an arbitrary list of operations (so: every decision of the control logic) | output predictor (OutputModel), yaw estimator (GsfModel), sensor buffers |
| EKF/mag_fusion, airspeed_fusion, sideslip_fusion, drag_fusion, optflow_fusion, gps_yaw_fusion | FusionModel, FusionGen, HeadingModel | innovation, variance, Jacobian, gain, gate, ill-conditioning handling, declination limits, heading sources | – |
| EKF/ekf.cpp, output predictor, resets | OutputModel, PredictModel, ResetModel | initialiseFilter, initialiseTilt, predictState, constrainStates, calculateOutputStates, all reset functions, save/load of mag covariance | event logging |
| EKF/control.cpp observations; ekf_helper.cpp baro offset, pressure, GPS/vision variances | ObsModel, ObsSpec | innovations, observation variances and gates of GPS, vision, height, auxiliary and synthetic observations; lever arms; height offsets | which source is fused when (ControlModel) |
| EKF/mag_control.cpp, control.cpp, optflow_fusion.cpp numerical tests | SenseModel | field check, observability tests, ground motion, flow compensation and checks, range aid, barometer consistency, heading failure | their use in the modes (ControlModel, linked by the _control_uses_tests theorems) |
| EKF/estimator_interface.h l.173-191, ekf.h getters, ekf.cpp l.348-391, 529-538 | PublishModel | published position, velocity, acceleration, predicted attitude, biases, variances, earth rate, vision alignment | innovation getters (copies of fields) |
| EKF/terrain_estimator.cpp | TerrainModel | all | – |
| EKF/EKFGSF_yaw.* | GsfModel, GsfFloat | all | – |
| EKF/utils.cpp | RotModel, CovModel (`kahanSummation`) | all | – |
| EKF/ekf_helper.cpp reports | StatusModel | status words, test ratios, accuracies, control limits, faults | trivial getters |
| airdata/WindEstimator.* | WindModel | all | – |
| geo/geo.cpp | GeoModel | all functions used by a property below | – |
| geo_lookup | GeoLookupModel, GeoTables | all | – |

## Plan per property
| id | arithmetic | files | how it is proved |
|----|-----|-------|-----------|
| C01–C03 | integers | RingBuffer* | refinement of the array to a bounded newest-first queue; induction over operation lists; witness for the unsigned wrap below 100 ms |
| C04 | integers | Control* | exact characterisation of the intermittency flags from buffer time stamps |
| C05–C07, C40, C41 | binary32, integers | Interface* | case analysis with the exact UB region; induction over deliveries; hull of the averaged samples |
| C08, C09 | R and binary32 | Filter* | induction over raw samples; convexity |
| C10, C11 | binary32, then R with error bounds | Range* | invariants over sample histories |
| C12, C13 | binary32, then R with error bounds | Gps* | invariant on the last failure time; drift filters bounded over histories; witnesses |
| C14–C17, C25, C27–C29, C42–C46, C62–C68 | integers, inputs | Control* | inductive invariants with a preservation tactic; exact decision characterisations by splitting controlFusionModes into sections with frame lemmas |
| C18, C19 | R, polymorphic | CovPred*, CovSpec | `ring` on each entry against F P F^T + G Q G^T with F the derivative of the prediction |
| C20–C22, C47–C51 | R, binary32 | Cov*, VelPos* | linear algebra of rank-one updates; history induction; gates with NaN in binary32; witnesses of indefiniteness |
| C23, C24, C52, C59, C72–C74 | R, polymorphic | Output*, Reset* | list algebra over the output buffers; contraction for tracking (discrete Lyapunov function for the vertical channel, OutputVert); rotation lemmas for headings |
| C26, C38, C39, C56 | binary32, bits | Status* | bit lemmas, case analysis, square roots around one |
| C30, C31 | R, binary32 | Wind* | algebra and derivatives; NaN and sign in binary32 |
| C32, C53–C55 | R | Geo* | spherical trigonometry |
| C33 | binary32 or R, integers | GeoLookup* | index arithmetic, bilinear interpolation, error of the float evaluation |
| C34, C57, C58 | R, binary32 | Gsf* | invariants of weights and bank; attitude reference by rotation algebra; witness for loss of orthogonality |
| C35 | R, binary32 | Terrain* | invariants and decision characterisation |
| C36 | R | Rot* | trigonometry |
| C37, C60, C61 | R, binary32 | Fusion*, Heading* | Jacobians as `is_derive`, variance and gain by `field`; witnesses in binary32 |
| C69 | binary32 with error bounds | Vibe* | filters as contractions with rounding error over histories |
| C70, C71 | R | Predict*, Start* | exact kinematics over sample lists; initialisation over histories |
| C75 | R | Obs* | innovation = estimate error − measurement error against a rigid-body sensor specification (ObsSpec) |
| C76, C77 | binary32, R | Obs* | lower bounds carried through rounding; case analysis with NaN |
| C78, C79 | R (NaN: binary32) | Obs*, Reset* | contraction over histories; composition of offset, reset and observation |
| C80, C81, C82 | R (NaN: binary32) | Sense*, Reset*, Cov filters | exact characterisation of each test; induction over sample histories; links to the control model |
| C83 | R | Publish*, Output*, Predict* | induction over update histories (attitude used for outputs = published attitude), rigid-body kinematics by derivatives, units |
| C84 | f32 | CovModel, Kahan* | exactness of Fast2Sum (Flocq) for one compensated step, induction over predictions on (variance - correction), clamp shown inactive |
| C85 | any / R | DragModel, Filter* | induction over groups; weighted-mean hull; non-interference of the samples between completions; witness for aliasing |
| C86 | integers | RingAlloc* | the checked-memory object refines the ring model of C01–C03 step by step (no UB outcome); a failed enlargement is a universally quantified witness |
| C87 | integers / R | ControlModel (`Reinit`), RestartOutModel, Props_Restart, Props_RestartOut | the re-initialisation is a step of the control model, so every invariant is re-proved over it; start-up continued from the retained state of C71; reset and alignment composed with the output predictor |
| C88 | R | Props_Cov2 | induction over histories of updates of CovModel: information of an axis adds up, the floor commutes with adding information |
| C89 | R | OriginModel, Props_Origin | map projection round trip as points of the sphere (no range restriction), composed with the state resets; spherical trigonometry (Clairaut) for the origin chosen under aiding; induction over sequences of moves |
| C90 | F | NanModel, FusionModel, OutputModel, Props_Nan, Props_NanDt | NaN propagation lemmas for the binary32 operators; invariants over arbitrary histories of everything that writes the attitude; the generic prediction read over the reals equals PredictModel (C90_same_prediction) |
| C91 | R | FusionModel (tableField, syntheticMagZ, flowVar, getTrueAirspeed), Props_Derived | rotation invariance of the norm and case analysis on the side of the body xy plane; algebra |
| C92 | R | CovModel, VelPosModel, BatchProofs, Props_Batch | updates that reach no limit are the textbook recursion (variances decrease, so clear of the floors at the end means clear of them throughout); normal equations by induction, uniqueness of the minimiser by Cauchy-Schwarz, hence order independence; algebra for the pairs |
| C93 | R | EngineModel (composition of the step models, driven by an arbitrary list of operations), EngineShift, EngineShift2, Props_Shift | every operation commutes with displacing positions: each gain and innovation reads positions only in differences; induction on the list |
| C94 | R | EngineModel; ideal sensor readings written with the geometry of FusionSpec (`reads`), ExactProofs, Props_Exact | per fusion: the innovation of an exact reading is zero and a zero innovation leaves a unit-quaternion state unchanged; the attitude stays a unit quaternion and the stored rotation matrix its matrix; induction on the history with a vehicle moved by the non-fusing operations |
| C95 | F | AttFloatModel (initialiseTilt over any scalar), NanModel (yawResetG), AttFloatProofs, AttFloatProofs2, Props_AttFloat | forward error analysis: each intermediate float is `near` its real counterpart; the quaternion-of-matrix branches are stable because the branch taken has a component >= 1/2 - eps; the library functions are universally quantified under the explicit hypothesis `accurate` (an instance is exhibited) |
| C96 | F | NanModel, Props_Nan (sop, sstep, srun), NoNanProofs, NoNanProofs2, Props_NoNan | an invariant (attitude unit to 1/4000, all states finite and below 2^45, interval in range) kept by every ordinary operation: relative error analysis of the vector norm down to 1e-10 rad, forward error of the quaternion product and its normalisation, absorption (2^45 plus two million rounds to 2^45); the library functions are universally quantified under `accurate` and `accurate_all` (an instance is exhibited). The covariance is not part of this claim |
| C97 | F | OutputModel and NanModel (expqG) over binary32, operations of Props_Nan plus alignOutputFilter, OutFloatProofs, Props_OutFloat | an invariant on filter, buffered and published attitudes (unit to a tolerance that grows by 1.3e-4 with every attitude reset and is restored by normalisation); forward error analysis of product, inverse and normalisation |
| C98 | R | ObsModel (evPosFuse, evVelFuse, fakeFuse, gpsFuse), Props_VisReset, Props_GpsReset (also C72: lever arm of a GPS reset) | the pair update of C92 applied to the state after the reset with the innovation from before it; a concrete case is evaluated |
| C99 | any scalar, R for the heading | InnovModel, FusionModel, Props_Innov, Props_InnovFuse | one operation measures, stops or leaves a report alone; induction over histories from the end, with an explicit decomposition of the history at the last measurement; defects as theorems |

Not expressible: real-time scheduling, thread interleavings (the library is single
threaded; the caller serialises calls), text of log messages.

## Tests against wrong programs
`seeded/LOG.jsonl` records manual and automatic edits of the model, the theorems that failed and those tightened.
Edits that no theorem can notice because they do not change observable behaviour carry a note saying so.
