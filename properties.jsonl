{"id": "C01", "title": "Sensor delay buffers behave as a bounded FIFO", "statement": "For any history of pushes and time-horizon reads, the delay buffer used for every sensor stream (IMU, mag, baro, GPS, range, airspeed, flow, external vision, drag, aux velocity, output) holds exactly the most recent samples, at most its allocated capacity, in arrival order: a push stores the sample as the newest and, only when the buffer is full, drops the oldest one and nothing else.", "quantifier": "every buffer capacity accepted by allocate, every sequence of push and pop operations of any length, every sample", "why_tests_cant": "the state space is the product of head/tail positions, fullness and contents; only a refinement proof covers all interleavings of push and pop", "anchors": ["EKF/RingBuffer.h: RingBuffer::allocate, push, pop_first_older_than, get_newest, get_oldest"]}
{"id": "C02", "title": "A time-horizon read returns the newest due sample and discards only it and older ones", "statement": "When a sensor buffer is read with the fusion time horizon t, the read succeeds exactly if some stored sample has a time stamp not later than t and less than 100 ms older than t, it then returns the most recently pushed such sample, and afterwards the buffer contains exactly the samples pushed after it; if it fails nothing is removed. In particular no sample newer than the horizon is ever returned (causality) and no sample is returned twice.", "quantifier": "every reachable buffer, every time stamp below 2^64 - 100000, horizons of at least 100 ms", "why_tests_cant": "quantifies over all buffer contents, including non-monotonic time stamps and all wrap positions", "anchors": ["EKF/RingBuffer.h: RingBuffer::pop_first_older_than"]}
{"id": "C03", "title": "Reads of an empty sensor buffer return nothing, except below 100 ms after boot", "statement": "A read of an empty or exhausted sensor buffer returns a sample exactly when the fusion horizon is earlier than 100 ms after boot (a defect: a consumed or never written slot has time stamp 0, which looks due), and then only a sample with time stamp 0; from 100 ms on it never returns one.", "quantifier": "all horizons and histories", "why_tests_cant": "the failing case needs a particular combination of consumed slot and small absolute time", "anchors": ["EKF/RingBuffer.h: RingBuffer::pop_first_older_than"]}
{"id": "C04", "title": "Detection of intermittent height sensors", "statement": "As long as some delivered baro sample has not been consumed, the barometer is not reported intermittent if the newest delivered sample is recent (400 ms); once the newest sample has been consumed the test reads an erased time stamp and reports the barometer as intermittent although the sample is recent (a defect).", "quantifier": "all delivery histories", "why_tests_cant": "depends on the interleaving of delivery and consumption", "anchors": ["EKF/control.cpp: Ekf::controlFusionModes (88-92)", "EKF/RingBuffer.h: get_newest, pop_first_older_than"]}
{"id": "C05", "title": "Buffer sizing and observation rate limit are well defined", "statement": "For every set of sensor delay parameters, initialising the interface computes an IMU buffer length covering the largest configured delay, an observation buffer length no longer than the IMU buffer and at least one, and a minimum observation interval that is a defined finite number such that the observation buffer covers the delay. The exact parameter region in which this fails (division by zero, conversion overflow) is characterised.", "quantifier": "all delay parameters and minimum intervals", "why_tests_cant": "the failing region consists of isolated parameter combinations (e.g. maximum delay not above two thirds of the minimum interval, or above 2540 ms)", "anchors": ["EKF/estimator_interface.cpp: initialise_interface (475-525), setIMUData (82)"]}
{"id": "C06", "title": "Observation pushes are rate limited and delay compensated", "statement": "For each asynchronous sensor a sample is buffered only if it arrives more than the minimum observation interval after the previously buffered sample; rejected samples change nothing visible; the buffered time stamp is the arrival time minus the configured delay minus half a filter period, and consecutive buffered samples keep the arrival order. GPS samples are buffered only with a 3D fix and while GPS is wanted for aiding or height.", "quantifier": "every sequence of sensor deliveries of every length", "why_tests_cant": "universally quantified over arrival histories including equal and backward time stamps", "anchors": ["EKF/estimator_interface.cpp: setMagData, setBaroData, setGpsData, setRangeData, setAirspeedData, setOpticalFlowData, setExtVisionData, setAuxVelData"]}
{"id": "C07", "title": "Mag and baro averaging never divides by zero and returns a mean inside the sample hull", "statement": "The averaged magnetometer or barometer sample that is buffered is the arithmetic mean of exactly the samples received since the previous buffered one, and its time stamp is their mean. (The code violates this after 256 samples between two pushes: the 8-bit counter wraps to zero.)", "quantifier": "all numbers of samples between two buffered samples", "why_tests_cant": "needs 256 consecutive deliveries inside one rate-limit interval", "anchors": ["EKF/estimator_interface.cpp: setMagData (120-160), setBaroData (240-280)"]}
{"id": "C08", "title": "IMU down-sampling conserves time and delta velocity bookkeeping", "statement": "The IMU down-sampler accumulates delta angle time, delta velocity time, clipping flags and delta velocity so that each emitted sample covers exactly the interval of the raw samples since the previous emission, and emission occurs exactly when the accumulated time reaches the adapted target; the target adaptation stays within half a filter period of the nominal target.", "quantifier": "all raw sample sequences and raw sample intervals", "why_tests_cant": "unbounded sequences of inputs with arbitrary dt", "anchors": ["EKF/imu_down_sampler.cpp: ImuDownSampler::update, reset"]}
{"id": "C09", "title": "Low-pass filter output stays inside the hull of its inputs", "statement": "For coefficient in [0,1] the alpha filter's state after any input sequence lies between the minimum and the maximum of the reset value and the inputs, and a constant input is a fixed point; setParameters yields a coefficient in [0,1] exactly for valid time constants.", "quantifier": "all input sequences of any length, all coefficients in [0,1]", "why_tests_cant": "unbounded input histories", "anchors": ["AlphaFilter/AlphaFilter.hpp"]}
{"id": "C10", "title": "Range finder data are used only when every validity condition holds", "statement": "isDataHealthy / isHealthy / isRegularlySendingData report valid only if the sample is fresh (not older than 400 ms), data arrive regularly (filtered interval below 2 s), quality has been non-zero for the hysteresis time, the tilt is within the limit, the reading is within the sensor's valid range and the sensor is not stuck; the filtered interval always remains within [0, 4 s]. A healthy range is moved to the IMU position (height error below 5 mm); only on the ground, with an unhealthy but regular sensor, is it replaced by the ground clearance.", "quantifier": "all sequences of samples, tilt matrices and update times", "why_tests_cant": "history-dependent filters and hysteresis timers", "anchors": ["EKF/sensor_range_finder.cpp, EKF/sensor_range_finder.hpp"]}
{"id": "C11", "title": "A stuck range finder is only trusted again after it moves", "statement": "After an interruption of more than ten seconds of valid data the range finder is declared stuck and stays rejected until its readings since the interruption spread by more than the configured minimum change.", "quantifier": "all reading histories", "why_tests_cant": "unbounded history", "anchors": ["EKF/sensor_range_finder.cpp: updateStuckCheck, updateValidity"]}
{"id": "C12", "title": "GPS is used for aiding only after ten seconds of passing checks", "statement": "GPS is declared good only if a 3D fix is present and none of the enabled checks failed during the whole minimum health time; failures of disabled checks never matter; drift checks apply only when at rest on ground. The drift and speed metrics are low-pass filters with a time constant of 10 s of quantities limited to ten times their limits: speeds below half the limit never fail the check, a speed of twice the limit lasting 30 s at rest always does.", "quantifier": "all GPS message histories and all check masks", "why_tests_cant": "sliding-window condition over unbounded histories", "anchors": ["EKF/gps_checks.cpp: gps_is_good, collect_gps"]}
{"id": "C13", "title": "The local origin is set once", "statement": "Once the NED origin has been initialised from GPS its latitude, longitude and altitude reference do not change through further GPS messages, whatever arrives; an origin set by the user before the first good fix is kept. (The code keeps latitude and longitude but overwrites the altitude of a user-set origin.)", "quantifier": "all sequences of GPS messages and origin commands", "why_tests_cant": "history property", "anchors": ["EKF/gps_checks.cpp: collect_gps", "EKF/ekf_helper.cpp: setEkfGlobalOrigin"]}
{"id": "C14", "title": "At most one primary height source is active", "statement": "In every reachable state at most one of barometer, GPS, range finder and external vision is the active height source.", "quantifier": "all sequences of filter updates with arbitrary sensor data, timeouts and parameters", "why_tests_cant": "reachable-state invariant over unbounded histories", "anchors": ["EKF/control.cpp: controlHeightFusion, controlHeightSensorTimeouts", "EKF/ekf_helper.cpp: setControlBaroHeight, setControlRangeHeight, setControlGPSHeight, setControlEVHeight"]}
{"id": "C15", "title": "Height aiding is restored, except with GPS as primary source", "statement": "With barometer, range finder or external vision as primary height source, lost height aiding is restored by the first update in which that sensor delivers usable data. With GPS as primary source and range aid disabled, a state without any height source is reachable by a GPS gap of more than one second while another horizontal source is active, and it is never left again whatever the sensors deliver (a defect).", "quantifier": "all histories", "why_tests_cant": "liveness over all executions", "anchors": ["EKF/control.cpp: controlHeightFusion (1025-1058), controlHeightSensorTimeouts", "EKF/ekf_helper.cpp: stopGpsPosFusion"]}
{"id": "C16", "title": "At most one yaw source is active", "statement": "In every reachable state at most one of magnetic heading and 3D magnetometer fusion is active and none of them together with GPS yaw or external-vision yaw; all four are mutually exclusive unless both GPS yaw and external-vision yaw are enabled, in which case those two can be active together (a defect).", "quantifier": "all sequences of mode transitions", "why_tests_cant": "reachable-state invariant", "anchors": ["EKF/mag_control.cpp", "EKF/control.cpp: controlExternalVisionFusion, controlGpsFusion", "EKF/ekf_helper.cpp: start/stop fusion functions"]}
{"id": "C17", "title": "Magnetometer fusion respects inhibition and fault flags", "statement": "No magnetometer mode is active after an update that starts with the (latched) magnetometer fault flag set, none is ever started while magnetometer use is disabled by parameter or without magnetometer data, and in automatic mode 3D fusion runs only in air, after in-flight alignment and within two seconds of suitable movement. (Switching the parameter to 'none' in flight does not stop a running mode, and the declination status bit survives the end of 3D fusion: defects.)", "quantifier": "all reachable states of the mag control machine", "why_tests_cant": "history-dependent state machine", "anchors": ["EKF/mag_control.cpp: controlMagFusion, runOnGroundYawReset, runInAirYawReset, selectMagAuto, check3DMagFusionSuitability, runMagAndMagDeclFusions"]}
{"id": "C18", "title": "Covariance stays symmetric through prediction", "statement": "After every covariance prediction the covariance matrix is symmetric and every element of an unused magnetic or wind state block is zero; a measurement update ends with a symmetric matrix unless all accelerometer axes are inhibited (then their 3x3 block is not symmetrised: a defect).", "quantifier": "all states, covariances, IMU samples, flags and noise parameters", "why_tests_cant": "24x24 real matrices; tests sample a few", "anchors": ["EKF/covariance.cpp: predictCovariance, fixCovarianceErrors"]}
{"id": "C19", "title": "The auto-generated covariance prediction equals F P F^T + G Q G^T", "statement": "Each of the 300 generated upper-triangular covariance expressions equals the corresponding element of F P F^T + G Q G^T where F and G are the derivatives of the documented strapdown process model with respect to states and IMU inputs; the prediction adds the process noise to the variances and limits them, and above 100 m horizontal uncertainty it keeps the horizontal position rows and columns.", "quantifier": "all symmetric covariance matrices, quaternions, IMU increments and noise variances", "why_tests_cant": "polynomial identities over the reals in up to 300 variables", "anchors": ["EKF/covariance.cpp: predictCovariance (254-873)", "EKF/python/ekf_derivation/main.py"]}
{"id": "C20", "title": "Measurement updates never increase uncertainty and keep the covariance positive", "statement": "A direct velocity/position/height update either leaves the state untouched and reports a numerical fault or reduces each state variance, keeps the covariance symmetric and positive semidefinite and moves the state by gain times innovation; the same holds for the generic sensor update, and no other gain would leave any variance smaller (above its documented floor). (With an inhibited accelerometer axis the updated covariance can be indefinite: a defect.)", "quantifier": "all covariances, innovations and variances", "why_tests_cant": "real-valued quantification", "anchors": ["EKF/vel_pos_fusion.cpp: fuseVelPosHeight", "EKF/ekf.h: updateCovariance / measurementUpdate"]}
{"id": "C21", "title": "Variances are confined after every covariance repair", "statement": "After the covariance health check the diagonal of each state block lies within its documented limits, for every input matrix without NaN on the diagonal. (NaN passes the limits, and the accelerometer floor can exceed its ceiling: defects.)", "quantifier": "all covariance matrices including non-finite entries", "why_tests_cant": "universally quantified over floats including NaN", "anchors": ["EKF/covariance.cpp: fixCovarianceErrors"]}
{"id": "C22", "title": "Out-of-gate or NaN innovations are rejected", "statement": "A velocity, position or height observation changes the state only if its innovation test ratio is at most one (or the caller disabled the gate); a NaN test ratio is rejected. (The code violates the NaN part when the gate is disabled, and masks a NaN on one horizontal axis.)", "quantifier": "all float inputs including NaN and infinity", "why_tests_cant": "exhaustive over IEEE values", "anchors": ["EKF/vel_pos_fusion.cpp: fuseHorizontalVelocity, fuseVerticalVelocity, fuseHorizontalPosition, fuseVerticalPosition"]}
{"id": "C23", "title": "State resets are published exactly", "statement": "Each velocity, position or attitude reset sets the filter state to the target, publishes exactly the difference new minus old (for attitude the rotation from old to new), moves the current output and every buffered output by exactly the published amount, increments only its own reset counter (mod 256) and touches nothing else. Exception (a defect): a vertical position reset overwrites the newest integral of the vertical output channel with the new delayed state instead of shifting it; the error disappears at the next filter update. Two resets of a kind between reads publish only the last difference.", "quantifier": "all states, buffers and targets", "why_tests_cant": "all buffer contents", "anchors": ["EKF/ekf_helper.cpp: resetHorizontalVelocityTo, resetVerticalVelocityTo, resetHorizontalPositionTo, resetVerticalPositionTo, resetQuatStateYaw"]}
{"id": "C24", "title": "Output predictor corrections preserve relative motion", "statement": "After any sequence of predictor steps, filter updates and resets, each buffered output velocity (position) differs from the current one by exactly the inertial increments accumulated since it was stored: corrections and resets never alter relative motion. The integrals of the vertical channel are the trapezoidal integrals of its velocities after each filter update, and alignment puts the oldest output on the filter state.", "quantifier": "all histories of steps, filter changes and resets, all buffer sizes", "why_tests_cant": "unbounded buffers", "anchors": ["EKF/ekf.cpp: applyCorrectionToOutputBuffer, applyCorrectionToVerticalOutputBuffer"]}
{"id": "C25", "title": "Time-out predicates are consistent", "statement": "For time stamps without wrap-around, 'timed out' and 'recent' are mutually exclusive, monotone in the current time, and exactly one of {recent, timed out, boundary} holds.", "quantifier": "all 64-bit time stamps and time-outs", "why_tests_cant": "2^128 cases incl. wrap-around", "anchors": ["EKF/estimator_interface.h / EKF/ekf.h: isTimedOut, isRecent"]}
{"id": "C26", "title": "Reported filter faults reflect the flags", "statement": "The reported filter fault value is zero exactly when none of flags 0-15 is set, and clearing it clears exactly those; the accelerometer faults (16, 17) are neither reported in the value nor cleared by a reset (a defect). In the solution status, attitude, velocity and position bits are set exactly when the corresponding aiding is active and the fault value is zero (so despite accelerometer faults), constant-position mode is the negation of horizontal velocity, GPS glitch is a failed GPS check with good magnetometer and yaw; bits 12-15 are whatever an uninitialised variable held (a defect).", "quantifier": "all flag combinations and test ratios", "why_tests_cant": "2^18 combinations and type layout", "anchors": ["EKF/common.h: fault_status_u, ekf_solution_status", "EKF/ekf_helper.cpp: get_ekf_soln_status", "EKF/ekf.cpp: reset"]}
{"id": "C27", "title": "Bad vertical accelerometer detection persists", "statement": "Once detected, bad vertical acceleration is reported for at least ten seconds after the last detection, and the clipping counter never leaves [0,100].", "quantifier": "all sequences of IMU clipping flags and test ratios", "why_tests_cant": "history property", "anchors": ["EKF/control.cpp: checkVerticalAccelerationHealth"]}
{"id": "C28", "title": "Emergency yaw resets are rate limited and bounded", "statement": "Resets of the yaw to the GSF estimate are more than five seconds apart and happen only with new GPS data and a converged estimator; those performed while GPS aiding is active number at most the configured limit over the whole life of the filter. (Resets before GPS aiding are not counted.)", "quantifier": "all histories", "why_tests_cant": "history property", "anchors": ["EKF/control.cpp: controlGpsFusion", "EKF/ekf_helper.cpp: resetYawToEKFGSF"]}
{"id": "C29", "title": "Dead-reckoning status is truthful", "statement": "After every update the wind/inertial dead-reckoning flags are set exactly if no velocity/position source and no optical flow was fused within the no-aiding time-out, with respectively without recent airspeed and sideslip fusion; after a dead-reckoning period the time-exceeded flag is set exactly when the last aided update is older than no-aiding time-out plus valid time-out allow.", "quantifier": "all combinations of flags and times", "why_tests_cant": "combinatorial and time quantified", "anchors": ["EKF/ekf_helper.cpp: update_deadreckoning_status, get_ekf_soln_status"]}
{"id": "C30", "title": "Wind estimator: gating, validity and Kalman updates", "statement": "Along every history of calls of the stand-alone wind estimator with any float inputs (NaN and infinities included), a valid estimate never reports a negative variance or a negative scale factor. A measurement outside its gate leaves wind, covariance and validity unchanged and starts the rejection interval; rejection for more than five seconds (or a negative innovation variance) re-initialises the estimator, which needs 3 m/s ground speed; a fused measurement that leaves the estimate valid leaves finite values, an exactly symmetric covariance and variances within 25, 25 and 0.1. Measurements closer than 100 ms and predictions closer than 1 s are ignored. In exact arithmetic a fused airspeed or sideslip measurement is the Kalman update for the derivative of the predicted measurement (P' = P - P h h^T P / S), keeps the covariance symmetric positive semidefinite and within the limits, and prediction adds the process noise to the three variances. Defects: initialisation from a NaN ground velocity reports a valid non-finite wind; the process noise of the two wind components is taken as fully correlated, so the uncertainty of their difference never grows; limiting a variance can make the covariance indefinite.", "quantifier": "all histories of calls, all float inputs; all real states for the Kalman update", "why_tests_cant": "covers unbounded call histories, all timestamps and all real states", "anchors": ["airdata/WindEstimator.cpp"]}
{"id": "C31", "title": "Wind estimator initial wind and covariance", "statement": "Initialisation above 3 m/s ground speed sets the wind so that the airspeed vector has the measured magnitude and the direction of the ground velocity, unit scale, and a symmetric positive semidefinite covariance. A defect: the covariance is L diag(var) L^T with a matrix L whose correction term has the two rows exchanged with respect to the Jacobian of the initial wind, so it is not the first-order covariance of the initial wind.", "quantifier": "all ground velocities above 3 m/s, airspeeds and variances", "why_tests_cant": "ranges over all real inputs", "anchors": ["airdata/WindEstimator.cpp: initialise"]}
{"id": "C32", "title": "Map projection round trip", "statement": "Projecting a geographic point to the local frame and reprojecting returns the same point, for every reference and every point that is neither a pole nor antipodal to the reference with longitude within 180 degrees of it; conversely reprojecting and projecting any local position nearer than half the circumference is the identity. The projection is azimuthal equidistant: the local distance from the origin is the great-circle distance and its direction is the initial bearing. The straight-line distance of the map coordinates of two points within an angle rho <= 90 degrees of the reference is at least the great-circle distance and at most rho / sin rho times it (1/8000 relative within 100 km). The reference projects to the origin; an uninitialised reference is rejected.", "quantifier": "all reference points and positions (real arithmetic)", "why_tests_cant": "trigonometric identities over the reals", "anchors": ["geo/geo.cpp: map_projection_project, map_projection_reproject"]}
{"id": "C33", "title": "Magnetic field lookup is safe, exact interpolation, continuous and accurate", "statement": "For every latitude/longitude that is not NaN (infinities and out-of-range values included) the declination, inclination and strength lookups read only inside their tables, never convert an out-of-range float, and return a finite value between the four surrounding entries (up to 1/256 table unit of rounding); a NaN coordinate is undefined behaviour (a defect). In exact arithmetic the result is the bilinear interpolation of the table at the clamped latitude and the same meridian (one turn is removed; beyond 540 degrees the date-line value is returned), equals the entry at grid points, is Lipschitz-continuous including across cell boundaries and the date line, and stays within the published ranges; the binary32 result differs from it by at most 0.00032 rad (declination), 0.00003 rad (inclination), 0.00001 gauss (strength). Declination is interpolated linearly across the +-180 degree jump near the poles, so there it can be more than 160 degrees away from all surrounding entries (a defect).", "quantifier": "all binary32 (and all real) latitudes and longitudes, all three tables", "why_tests_cant": "two-dimensional continuum; tests sample a few thousand points", "anchors": ["geo_lookup/geo_mag_declination.cpp: get_table_data, get_lookup_table_index, get_mag_*", "geo_lookup/geo_magnetic_tables.hpp"]}
{"id": "C34", "title": "Yaw estimator weights and output", "statement": "Whenever the emergency yaw estimator reports an estimate, its five model weights are positive and sum to one, the composite yaw lies in (-pi, pi] and is the direction of the weighted sum of the models' yaw vectors (the common yaw when they agree), and the variance is the weighted mean of the models' variances and squared deviations the short way round, at least 1e-6. A velocity sample is used at most once; it multiplies each weight by the Gaussian likelihood of that model's innovation, floors at 1e-5 and normalises; if every weight falls below the floor the estimator stops reporting and restarts. Flying starts with five equally weighted hypotheses 72 degrees apart at the measured velocity; on the ground nothing is reported. In binary32 the weights stay finite, positive and normalised to 1e-6 for every history of finite likelihoods, but one NaN likelihood makes all weights NaN for good (a defect).", "quantifier": "all histories of IMU and velocity inputs; all binary32 likelihood histories", "why_tests_cant": "history property over the reals and all floats", "anchors": ["EKF/EKFGSF_yaw.cpp: update, initialiseEKFGSF, gaussianDensity, getYawData, getLogData"]}
{"id": "C35", "title": "Terrain estimator", "statement": "Once initialised and in the air the estimated terrain is at least the ground clearance below the vehicle after every run; on the ground it is exactly that. (Not so after initialisation in the air, nor in binary32 for large positions: defects.) Range measurements within their gate are combined with the estimate with minimum variance, others are ignored unless nothing was accepted for 10 s, when the estimate is reset to them; the error to a flat terrain never grows beyond the largest measurement error. Flow measurements are extended Kalman updates with the derivative of the predicted rate; the second axis uses a stale prediction, so agreeing axes can overshoot (a defect). The variance is never negative (also in binary32, for all inputs) and bounded. The estimate is reported valid only if there was terrain information in the last 5 s.", "quantifier": "all histories of inputs, parameters and states", "why_tests_cant": "history property", "anchors": ["EKF/terrain_estimator.cpp: runTerrainEstimator, initHagl, fuseHagl, fuseFlowForTerrain, updateTerrainValidity", "EKF/optflow_fusion.cpp: calcOptFlowMeasVar"]}
{"id": "C36", "title": "Rotation helpers return rotations", "statement": "Quaternion-to-matrix and 312 Tait-Bryan conversions return proper rotations (the latter yaw-roll-pitch); the Euler sequence chosen for heading is at least 45 degrees from its singularity; updating the heading of an attitude is a rotation about the vertical that preserves the tilt, reads back the heading set, and is the identity for the present heading. A yaw reset therefore publishes, and applies to all outputs, a pure rotation about the vertical.", "quantifier": "all unit quaternions and all angles", "why_tests_cant": "real-valued identities", "anchors": ["EKF/utils.cpp: taitBryan312ToRotMat, quatToInverseRotMat, updateYawInRotMat"]}
{"id": "C37", "title": "Kalman gains and innovation variances are the textbook ones", "statement": "For airspeed, sideslip, drag, optical flow, magnetometer, yaw, declination and GPS-yaw fusion the generated observation Jacobian h is the gradient of the documented measurement model, the reported innovation variance is h P h' + R and the correction is the gain P h / (h P h' + R) times the innovation, restricted to the states the fusion may change (all, or only wind / only magnetic field); an observation outside its gate leaves state and covariance untouched; when no estimated state is left out the new covariance is P - P h h' P / S, limited, and stays symmetric and positive semi-definite. Exceptions of the code, stated exactly (defects): the second and third axis of drag, flow and magnetometer fusion reuse innovations (and for flow variances or Jacobian inputs) computed before the previous axis was fused; yaw fusion does not report the innovation of a rejected heading; GPS yaw is skipped when the antenna baseline points within 1e-3 rad-tangent of east/west; of two usable derivative paths for yaw the worse conditioned is taken; sideslip divides by the forward relative speed, so pure sideways flow makes the states NaN; the declination innovation is not wrapped.", "quantifier": "all states and symmetric positive semi-definite covariances, all measurements and parameters", "why_tests_cant": "polynomial/rational identities and derivatives over all 24-dimensional states", "anchors": ["EKF/airspeed_fusion.cpp", "EKF/sideslip_fusion.cpp", "EKF/drag_fusion.cpp", "EKF/optflow_fusion.cpp", "EKF/mag_fusion.cpp", "EKF/gps_yaw_fusion.cpp"]}
{"id": "C38", "title": "Control limits reported to the vehicle", "statement": "The horizontal speed limit is reported exactly when optical flow is the only horizontal aiding source, is never negative or NaN and equals half the flow rate limit times the height above ground; height limits are reported exactly when the height relies on the range finder (without range aid) or flow is the only source, as the tighter of the sensors' limits; everything else, and the vertical speed always, is reported as unlimited (NaN). (The height limits themselves are not checked: a minimum above the maximum is passed on.)", "quantifier": "all flag combinations, sensor limits and states (binary32, including NaN)", "why_tests_cant": "continuum plus combinatorial", "anchors": ["EKF/ekf_helper.cpp: get_ekf_ctrl_limits"]}
{"id": "C39", "title": "Innovation test status flags and ratios", "statement": "After any history of checks every bit of the innovation check word shows the outcome of the last check that wrote it, and a measurement is outside its gate exactly when one of the bits its check writes is set. The magnetometer and flow checks write one bit too low (a defect): a rejected X axis is reported as a rejected vertical position or terrain, an accepted one clears such a rejection, and the last axis is never reported. A reported test ratio exceeds one exactly when one of the squared ratios it summarises exceeds 1+2^-23, so over one implies rejected. NaN ratios reject velocity, position and terrain measurements but let all others be fused (a defect).", "quantifier": "all histories of checks and all test ratios incl. NaN", "why_tests_cant": "histories of unbounded length, IEEE special values and combinations", "anchors": ["EKF/ekf_helper.cpp: get_innovation_test_status", "EKF/common.h: innovation_fault_status_u", "EKF/mag_fusion.cpp: fuseMag", "EKF/optflow_fusion.cpp: fuseOptFlow"]}
{"id": "C40", "title": "Horizontal aiding bookkeeping", "statement": "A source is reported as the only active horizontal aiding source exactly if it is active and no other source is; aiding is reported active exactly if some source is (GPS, optical flow, external-vision position, external-vision velocity, or airspeed together with sideslip).", "quantifier": "all combinations of active aiding sources", "why_tests_cant": "the claim is an equivalence over every combination and every source", "anchors": ["EKF/estimator_interface.cpp: getNumberOfActiveHorizontalAidingSources, isOnlyActiveSourceOfHorizontalAiding, isOtherSourceOfHorizontalAidingThan"]}
{"id": "C41", "title": "Vehicle-at-rest detection", "statement": "The vehicle is reported at rest exactly if it is on ground and for more than one second no update reported movement or flight.", "quantifier": "all histories of IMU updates with non-decreasing time stamps", "why_tests_cant": "history property", "anchors": ["EKF/estimator_interface.cpp: checkIfVehicleAtRest"]}
{"id": "C42", "title": "GPS aiding and external-vision yaw start only under their preconditions", "statement": "An update turns GPS aiding on only with a new GPS sample, GPS enabled by parameter, tilt and yaw aligned, a known origin and no GPS check failure during the last five seconds; external-vision yaw is turned on only with recent vision data, enabled, tilt aligned and without GPS aiding.", "quantifier": "all states, parameters and inputs", "why_tests_cant": "exhaustive over the product of all flags, time stamps and measurement outcomes", "anchors": ["EKF/control.cpp: controlGpsFusion, controlExternalVisionFusion", "EKF/ekf_helper.cpp: startGpsFusion, startEvYawFusion"]}
{"id": "C43", "title": "Sources that stop delivering are dropped", "statement": "GPS aiding ends in the first update more than ten seconds after the last GPS sample, after one second if external vision or air data aid as well, and when GPS quality was bad for five seconds and such a source aids; external-vision aiding ends after the reset time-out; optical flow ends ten seconds after its last sample; airspeed fusion is reported only if airspeed was fused in the last ten seconds. (GPS yaw without GPS position aiding is never dropped: a defect.)", "quantifier": "all states, parameters, inputs and (for the defect) all executions without GPS data", "why_tests_cant": "time-outs over unbounded histories", "anchors": ["EKF/control.cpp: controlGpsFusion, controlExternalVisionFusion, controlOpticalFlowFusion, controlAirDataFusion"]}
{"id": "C44", "title": "Synthetic position is used exactly without aiding", "statement": "After every update the filter uses a synthetic position exactly if no horizontal aiding source is active, and it fuses it at most once every 200 ms and only in that case.", "quantifier": "all states, parameters and inputs", "why_tests_cant": "exhaustive over flag combinations and time stamps", "anchors": ["EKF/control.cpp: controlFakePosFusion"]}
{"id": "C45", "title": "Disabling a source by parameter stops it", "statement": "With GPS (optical flow) disabled in the fusion-mode mask, an update that receives a sample of that sensor leaves GPS (optical flow) aiding off. (External-vision position fusion is not stopped: a defect.)", "quantifier": "all states, parameters and inputs", "why_tests_cant": "exhaustive over flag combinations", "anchors": ["EKF/control.cpp: controlGpsFusion, controlOpticalFlowFusion, controlExternalVisionFusion"]}
{"id": "C46", "title": "Alignment and fault latches", "statement": "Until a re-initialisation, tilt alignment is never lost; yaw alignment is never lost with magnetometer types automatic, heading and 3D (with type indoor it can be lost when GPS aiding is attempted: a defect); magnetometer and GPS-yaw faults are latched (the latter even across a re-initialisation); in-air, fixed-wing, at-rest and sideslip flags are changed only by the interface calls, and the last-in-air and last-on-ground times are those of the last call that said so.", "quantifier": "all executions", "why_tests_cant": "invariants over unbounded histories", "anchors": ["EKF/control.cpp: controlFusionModes", "EKF/mag_control.cpp", "EKF/ekf_helper.cpp: resetMagHeading", "EKF/estimator_interface.h: set_in_air_status"]}
{"id": "C47", "title": "Inhibited accelerometer-bias axes keep their learned variance", "statement": "While learning of an accelerometer bias axis is inhibited, the variance of that axis after every covariance prediction is the one it had when inhibition began, learning resumes from that variance on release, and the axis has no correlation with the attitude, velocity, position and gyro-bias states. (Correlations with later states, e.g. the next accelerometer axis, survive: a defect.)", "quantifier": "all histories of covariance predictions with arbitrary changes of the matrix in between", "why_tests_cant": "history property over 24x24 matrices", "anchors": ["EKF/covariance.cpp: predictCovariance (147-187)"]}
{"id": "C48", "title": "Covariance stays positive semidefinite over flight histories", "statement": "Along every interleaving of predictions, sensor updates, block resets, yaw-variance increases and attitude-covariance resets that respects the variance limits, the covariance stays symmetric, positive semidefinite and within its limits. (Two defects break this: an inhibited accelerometer axis correlated with later states, and the horizontal position hold above 100 m uncertainty.)", "quantifier": "all operation histories in exact arithmetic", "why_tests_cant": "positive semidefiniteness quantifies over all vectors and all histories", "anchors": ["EKF/covariance.cpp: predictCovariance, fixCovarianceErrors", "EKF/ekf.h: measurementUpdate"]}
{"id": "C49", "title": "Attitude covariance corresponds to rotation-vector variances", "statement": "Initialising the attitude covariance from rotation-vector variances gives J diag(v) J^T with J the derivative of the quaternion with respect to the rotation vector, leaves all other blocks unchanged and decorrelated from attitude; the reported rotation-vector variances are the first-order propagation through the inverse map; the initial covariance is positive semidefinite.", "quantifier": "all unit quaternions and variances outside the small-angle branch", "why_tests_cant": "derivative identities over the reals", "anchors": ["EKF/ekf_helper.cpp: initialiseQuatCovariances, calcRotVecVariances", "EKF/covariance.cpp: initialiseCovariance"]}
{"id": "C50", "title": "Yaw uncertainty increase is a pure yaw covariance", "statement": "Increasing the yaw variance adds exactly min(variance, 0.01) times the outer product of the derivative of the attitude quaternion with respect to earth-frame yaw, and keeps the covariance positive semidefinite.", "quantifier": "all unit quaternions, variances and covariances", "why_tests_cant": "derivative identity over the reals", "anchors": ["EKF/ekf_helper.cpp: increaseQuatYawErrVariance"]}
{"id": "C51", "title": "Wind covariance reset", "statement": "With recent airspeed data the wind covariance is reset to the first-order propagation of airspeed, sideslip and yaw uncertainty through the wind solution plus the velocity variances, decorrelated from all other states. (Without airspeed the 1-sigma wind uncertainty is used as a variance: a defect.)", "quantifier": "all wind states, headings, covariances and parameters", "why_tests_cant": "derivative identity over the reals", "anchors": ["EKF/covariance.cpp: resetWindCovariance"]}
{"id": "C52", "title": "The output predictor tracks the filter", "statement": "With a constant filter interval dt and time constant tau the velocity and position errors of the output at the fusion horizon are bounded by C*r^n + K*W after n updates, where r<1 and K depend only on dt/constrain(tau,dt,10) and W bounds the part of the filter's own change per update that is not inertial (fusion corrections): errors decay geometrically. The separate vertical channel (the vertical position derivative and its integral) tracks in the same way: its squared errors decay geometrically to a level proportional to the squared disturbances, for every filter interval up to 10 s, IMU interval up to 1 s and all time constants.", "quantifier": "all initial states and histories, all IMU sequences, all filter trajectories, all dt in (0,10] and tau", "why_tests_cant": "asymptotic claim over infinite runs", "anchors": ["EKF/ekf.cpp: calculateOutputStates, applyCorrectionToOutputBuffer"]}
{"id": "C53", "title": "Distance, bearing and waypoint construction agree", "statement": "The waypoint distance is the great-circle distance (symmetric, zero exactly for the same point, and obeying the triangle inequality); a waypoint built from a heading and a distance below half the circumference lies at that distance with that bearing and is what the map projection around the start gives; the waypoint on a line at the distance of its end is the end; 3-D and local distances are Euclidean in their parts.", "quantifier": "all coordinates, headings and distances (real arithmetic)", "why_tests_cant": "trigonometric identities over the reals", "anchors": ["geo/geo.cpp: get_distance_to_next_waypoint, get_bearing_to_next_waypoint, waypoint_from_heading_and_distance, create_waypoint_from_line_and_dist, get_distance_to_point_global_wgs84, mavlink_wpm_distance_to_point_local"]}
{"id": "C54", "title": "Local vectors between global positions", "statement": "The fast vector between two positions and adding a vector to a position invert each other away from the poles; the accurate vector points along the bearing and its length is the sine projection of the great-circle angle, never longer than the distance.", "quantifier": "all coordinates (real arithmetic)", "why_tests_cant": "trigonometric identities over the reals", "anchors": ["geo/geo.cpp: get_vector_to_next_waypoint, get_vector_to_next_waypoint_fast, add_vector_to_global_position"]}
{"id": "C55", "title": "Cross-track error", "statement": "For a line: an error is returned exactly within 0.1 m of the end, past-end is reported exactly when the end is more than 90 degrees off the track direction, otherwise the distance is that of the end times the sine of the angle and the bearing is perpendicular to the track on the side that reduces it. For an arc: an error is returned exactly for radii below 0.1 m; inside the sector the result is the distance and direction to the circle. (Defects: outside the sector the result does not depend on the arc's centre, and the sector test uses the bearing towards the centre, so a point lying on the arc can be reported off it.)", "quantifier": "all coordinates, radii, start bearings and sweeps (real arithmetic)", "why_tests_cant": "trigonometric identities and case analysis over the reals", "anchors": ["geo/geo.cpp: get_distance_to_line, get_distance_to_arc"]}
{"id": "C56", "title": "Reported accuracies are conservative", "statement": "The reported position and velocity accuracies are never below the square root of the corresponding covariance (plus the origin uncertainty for the global position). While dead reckoning the horizontal ones are the maximum of that and the magnitude of the last innovations of the lost sources. In binary32 the reported value is neither below the covariance-based one nor NaN unless that or an innovation is NaN.", "quantifier": "all covariances, innovations and aiding flags", "why_tests_cant": "continuum; combinations of flags", "anchors": ["EKF/ekf_helper.cpp: get_ekf_gpos_accuracy, get_ekf_lpos_accuracy, get_ekf_vel_accuracy"]}
{"id": "C57", "title": "Yaw estimator filter bank", "statement": "Each filter of the bank predicts with the process model (velocity plus delta velocity turned by the attitude's yaw) and propagates its covariance with that model's Jacobians and noise; velocity updates are the Kalman equations with the innovation shortened to five standard deviations, and turn the attitude about the vertical by exactly the yaw correction. After every history the covariances are symmetric, positive semi-definite with yaw variance at least 1e-6, so an update is never rejected. The velocity accuracy handed to the estimator is the GPS vertical position accuracy; the reported speed accuracy is ignored (a defect).", "quantifier": "all histories, states and inputs (real arithmetic)", "why_tests_cant": "covariance positivity is a history property; Jacobians are identities over the reals", "anchors": ["EKF/EKFGSF_yaw.cpp: predictEKF, updateEKF", "EKF/ekf_helper.cpp: runYawEKFGSF"]}
{"id": "C58", "title": "Yaw estimator attitude reference", "statement": "The attitude reference is aligned on the first sample with specific force within 10% of 1 g, to a rotation that turns the specific force upright with heading zero (not for a vehicle pointing straight up or down, where it is undefined: a defect). The tilt correction gain lies in [0, 0.2], is full at 1 g and zero far from it; the correction turns the estimated towards the measured vertical, after removing the centripetal acceleration of coordinated flight. Gyro biases never exceed 0.05 rad/s or the largest bias handed in. The low-passed specific force converges to a constant input. The attitude rows stay bounded under every sequence of steps up to 1 rad, but they are not kept orthogonal: under steady rotation about an oblique axis their components along the axis decay to zero (a defect).", "quantifier": "all histories, states and inputs (real arithmetic)", "why_tests_cant": "history and limit properties", "anchors": ["EKF/EKFGSF_yaw.cpp: ahrsPredict, ahrsAlignTilt, ahrsCalcAccelGain, ahrsPredictRotMat"]}
{"id": "C59", "title": "Output attitude", "statement": "Along every history of IMU steps, filter updates and resets the current and all stored output attitudes are unit quaternions. Each IMU step rotates the output attitude by the measured delta angle minus the gyro bias for that interval plus the tracking correction; the reported earth-frame yaw change is the vertical component of the same vector. After each filter update the correction is opposite to the rotation from the filter's attitude to the delayed output, of length 2 sin(angle/2) times half an IMU interval per delay, and the reported tracking errors are that length and the Euclidean velocity and position differences.", "quantifier": "all histories, inputs and attitudes (real arithmetic)", "why_tests_cant": "invariant of unbounded histories; identities over the reals", "anchors": ["EKF/ekf.cpp: calculateOutputStates"]}
{"id": "C60", "title": "Earth magnetic field estimate stays plausible", "statement": "When declination is fused or limited, the horizontal earth-field estimate is made at least half the tabulated horizontal field (at least 1 mGauss; 1 mGauss without tables), keeping its direction if it was not negligible, and its declination is brought to within 0.5 rad (with known location) of the reference; the limiter clips the declination without wrapping, so a field whose declination is within 0.5 rad of the reference but across the +-180 degree cut is moved to 0.5 rad away from it (a defect). The limits hold after every all-state magnetometer or declination fusion.", "quantifier": "all field estimates, tables and parameters", "why_tests_cant": "real-valued geometry, all angles", "anchors": ["EKF/mag_fusion.cpp:limitDeclination", "EKF/mag_fusion.cpp:fuseMag", "EKF/mag_fusion.cpp:fuseDeclination"]}
{"id": "C61", "title": "Heading is fused from the active source, zero innovation when unusable", "statement": "Heading fusion picks the 3-2-1 or 3-1-2 yaw by the larger tilt axis so that a derivative path is always usable, compares the estimated yaw with the magnetic heading of the bias-corrected sample plus declination, else with the vision yaw, else with itself; with R = max(source variance, 1e-4). When yaw fusion is inhibited and the vehicle rests, the stored static heading is fused; when it moves and the attitude variance exceeds the limit a zero innovation with variance 0.25 is fused. When it moves and the attitude variance is within the limit the inhibited source is fused as if it were not inhibited (a defect).", "quantifier": "all unit attitudes, all covariances, all samples", "why_tests_cant": "trigonometric identities over all attitudes", "anchors": ["EKF/mag_fusion.cpp:fuseHeading", "EKF/mag_fusion.cpp:fuseYaw321", "EKF/mag_fusion.cpp:fuseYaw312", "EKF/mag_fusion.cpp:updateQuaternion"]}
{"id": "C62", "title": "Height is fused only from new data of the active source", "statement": "An update fuses height only if the active height source delivered a new sample in it (barometer not intermittent, range finder healthy, GPS), or on the ground with an unhealthy but regularly arriving range finder after 0.4 s without height fusion; conversely new data of the active source is fused. With the external-vision height source the last vision sample is fused again at every update, however old it is and although vision aiding was stopped (a defect).", "quantifier": "all states and inputs of an update, all parameters", "why_tests_cant": "quantifies over all states, source flags and timings", "anchors": ["EKF/control.cpp: controlHeightFusion, controlHeightSensorTimeouts"]}
{"id": "C63", "title": "Emergency yaw reset requests and the reset to GPS", "statement": "A requested emergency yaw reset stays pending until a yaw reset is performed, and is cleared by it. While GPS aiding is active and its samples are rejected, position and velocity are reset to GPS exactly when no horizontal aiding was fused for the reset timeout, no position for twice that, or a yaw reset is performed; a yaw reset without request is performed only in the air on a velocity direction error after loss of aiding. While a permitted yaw reset waits for the yaw estimator to converge, the reset to GPS is not done however long aiding is lost (a defect).", "quantifier": "all states, inputs and parameters; all histories of requests", "why_tests_cant": "time-outs over all histories", "anchors": ["EKF/control.cpp: controlGpsFusion", "EKF/ekf_helper.cpp: resetYawToEKFGSF"]}
{"id": "C64", "title": "Magnetometer inhibition and heading reset requests", "statement": "While the magnetometer is in charge of heading, heading fusion is inhibited exactly if the field-strength check fails or in indoor mode without GPS or vision; more than five seconds of inhibition request a heading reset. In the air a requested heading reset is done at once when heading fusion is not inhibited and the field is undisturbed, and the request is kept otherwise; a fixed wing does it even in a disturbed field, at low GPS speed to the magnetic heading (a defect). The synthetic vertical field is used exactly if enabled, the declination table is selected and the location is known. Without a magnetometer (fusion type none) magnetometer fusion counts as inhibited as soon as neither vision nor GPS yaw is used, and stays so.", "quantifier": "all states, inputs and parameters of an update", "why_tests_cant": "quantifies over all states and all combinations of decisions", "anchors": ["EKF/mag_control.cpp: controlMagFusion, checkMagInhibition, runInAirYawReset", "EKF/control.cpp: controlFusionModes"]}
{"id": "C65", "title": "Airspeed, sideslip and wind estimation", "statement": "Airspeed is fused only in the air, on a new sample and not while a synthetic position is in use, and airspeed aiding ends ten seconds after the last fusion; sideslip is fused only in the air, when enabled, at most at the configured rate and not with a synthetic position. Wind estimation starts only on a reason to fuse one of these (or drag) and stops when a synthetic position is in use or both are older than ten seconds and drag is not used.", "quantifier": "all states, inputs and parameters of an update", "why_tests_cant": "quantifies over all states and all combinations of decisions", "anchors": ["EKF/control.cpp: controlAirDataFusion, controlBetaFusion, controlDragFusion"]}
{"id": "C66", "title": "Vision position and velocity mode", "statement": "When a vision sample is processed with vision position aiding on, it is fused as odometry exactly if GPS use is configured (and the sample is remembered as the previous one), as absolute position otherwise; an accepted sample updates the corresponding fusion time. An aligned filter with vision velocity configured and recent vision data starts vision velocity aiding on the next sample and fuses it if it passes its gate. An auxiliary velocity sample is fused exactly if some horizontal aiding is active and it passes its gate.", "quantifier": "all states, inputs and parameters of an update", "why_tests_cant": "quantifies over all states", "anchors": ["EKF/control.cpp: controlExternalVisionFusion"]}
{"id": "C67", "title": "Range aid", "statement": "Range aid is judged suitable exactly in the air, with a healthy range finder and a valid terrain estimate, while range, height uncertainty and (with GPS aiding) speed are below limits that are wider once range aid is suitable. With the barometer as height source the range finder takes over exactly if range aid is enabled and suitable and it has healthy data, and the barometer is used again at its next sample after that ends.", "quantifier": "all states, inputs and parameters of an update", "why_tests_cant": "hysteresis depends on all histories; quantifies over all states", "anchors": ["EKF/control.cpp: checkRangeAidSuitability, controlHeightFusion"]}
{"id": "C68", "title": "Optical flow aiding", "statement": "For an aligned filter, when a flow sample is pending or new and passes the checks (or, on the ground, has its rotation compensated), flow aiding is on after the update exactly if it is configured and not unsuitable: in the air over unknown terrain when neither dead reckoning, nor the only aiding source, nor with a bad GPS solution; on the ground within five seconds of excessive motion. Flow is fused only from such a sample, with the terrain height updated in the last ten seconds and the gate passed, and is fused then once the mid-point of the sample is behind the fusion horizon.", "quantifier": "all states, inputs and parameters of an update", "why_tests_cant": "quantifies over all states and timings", "anchors": ["EKF/control.cpp: controlOpticalFlowFusion"]}
{"id": "C69", "title": "Vibration metrics and at-rest detection from IMU data", "statement": "A vehicle whose sample-to-sample jitter stays 10% and whose rate stays 2% below the thresholds is reported at rest after the metrics have settled and one more second; a single sample turning 2% faster than the threshold, or 400 samples of jitter 10% above a threshold, prevents the report (for the next second). The metrics are first-order filters of the jitter (factor 0.99 per sample), the coning metric of the cross product of consecutive delta angles. The IMU time step used is always within 0.1 ms and 20 ms and the elapsed time in between; its average follows with factor 0.8.", "quantifier": "all sample histories with bounded components and non-decreasing time stamps, all thresholds scalers in [1/4, 100]", "why_tests_cant": "history property with floating-point filters", "anchors": ["EKF/estimator_interface.cpp: setIMUData, computeVibrationMetric, checkIfVehicleAtRest"]}
{"id": "C70", "title": "State prediction from inertial samples", "statement": "One prediction turns the attitude by the measured rotation less gyro bias and earth rotation (a unit quaternion, matrix consistent), adds the specific force less accelerometer bias in earth axes and gravity to the velocity, integrates position with the trapezoidal rule, and keeps all other states within their limits. Started at the truth with the true biases it reproduces exactly any motion made of turns and legs of constant acceleration, for any division into samples (v = v0 + aT, p = p0 + v0 T + aT^2/2); at rest it stays at rest for ever; an initial velocity error is kept and the position error grows linearly. State limits hold after every prediction; the average update period stays in 5..20 ms and converges with factor 0.99, the filtered acceleration with a time constant of one second.", "quantifier": "all sample histories, attitudes, biases and sample periods (exact arithmetic)", "why_tests_cant": "quantifies over all histories and real-valued motions", "anchors": ["EKF/ekf.cpp: predictState", "EKF/ekf_helper.cpp: constrainStates"]}
{"id": "C71", "title": "Start-up of the filter", "statement": "Initialisation completes exactly at the first update with IMU periods of at least 0.1 ms at which enough barometer samples (and magnetometer samples, unless no magnetometer is used) have arrived, the filtered acceleration is within 20% of gravity and the filtered rate at most 15 degrees per second. The initial attitude has heading zero and turns the filtered acceleration straight up, so a vehicle at rest gets its true roll and pitch; the height reference lies within the range of the barometer samples received; a moving vehicle never initialises.", "quantifier": "all histories of updates shorter than 2^32 (exact arithmetic)", "why_tests_cant": "history property over real-valued samples", "anchors": ["EKF/ekf.cpp: initialiseFilter, initialiseTilt"]}
{"id": "C72", "title": "Velocity, position and height resets to a source", "statement": "A velocity reset takes the GPS velocity if GPS is used and did not fail recently, else the optical flow, else vision, else zero; a position reset the GPS position, else vision, else the last known one (the origin with flow on the ground); a height reset the range finder, barometer, GPS or vision height, re-referencing the barometer with range and GPS, and the vertical velocity of GPS or zero. The state becomes exactly the source value, the change is published and applied to the outputs, the covariance block becomes the source variances without correlations, everything else is kept and the covariance stays positive semi-definite. The vision velocity is exact for a sensor with lever arm in each frame; a GPS reset is not: velocity and horizontal position become those of the antenna, so the velocity is exact only if the antenna is on the axis of rotation (a defect); the flow velocity lacks the component along the optical axis, so it is exact only without it (a defect); a vision height reset does not reset the height variance (a defect).", "quantifier": "all states, samples, source flags and attitudes (exact arithmetic)", "why_tests_cant": "quantifies over all real-valued states and samples", "anchors": ["EKF/ekf_helper.cpp: resetVelocity, resetHorizontalPosition, resetHeight, getVisionVelocityInEkfFrame"]}
{"id": "C73", "title": "Heading resets", "statement": "A compass reset puts the horizontal field at the declination, keeps tilt, velocity, position and biases, sets the field states to the measured field in earth axes, and recovers the true attitude if the tilt is right; it acts once per sample time. Above 5 m/s with 15% speed accuracy a course alignment sets the heading from GPS only if not aligned before, or if the course is off by more than 0.5 rad with failing velocity checks; the first one turns the attitude by the course error, later ones point the nose along the air-relative or ground velocity; a second bad event declares the compass faulty. Vision and yaw-estimator resets set exactly their heading. The attitude variance grows by at most 0.01 rad^2 along the yaw direction. With the Euler sequence the code did not choose, vision resets and the first course alignment turn an attitude that already agrees (a defect).", "quantifier": "all attitudes, fields, velocities and histories of alignment flags (exact arithmetic)", "why_tests_cant": "quantifies over all attitudes and real-valued measurements", "anchors": ["EKF/ekf_helper.cpp: resetMagHeading, realignYawGPS, startEvYawFusion, resetYawToEKFGSF, resetQuatStateYaw"]}
{"id": "C74", "title": "Bias and wind resets", "statement": "A reset of the IMU or magnetometer biases sets them to zero with the configured uncertainty and without correlations, keeping everything else; the magnetic field covariance kept while three-axis fusion is off is restored unchanged (with zero bias variance after a magnetometer bias reset); a wind reset with a recent airspeed makes the air-relative horizontal velocity the airspeed along the heading (no sideslip with wings level), and zero wind otherwise.", "quantifier": "all states, covariances and parameters (exact arithmetic)", "why_tests_cant": "quantifies over all states and covariances", "anchors": ["EKF/ekf_helper.cpp: resetImuBias, resetMagBias, saveMagCovData, loadMagCovData", "EKF/airspeed_fusion.cpp: resetWindStates"]}
{"id": "C75", "title": "Observations are referred to the inertial unit", "statement": "The innovation of every GPS velocity, position and height observation is exactly the error of the estimate minus the error of the receiver, with the lever arm and rotation of the antenna removed; the same for vision velocity in either frame, vision position and position increments whose axes are those of the filter, auxiliary velocity, range and barometer height. GPS and height observation noise is that reported by the sensor within the configured limits. With rotated vision axes the lever arm is subtracted before the rotation (a defect); the first vision increment after a start or position reset fuses the previous innovations with zero noise (a defect); the vision height lever arm is removed only after the first fusion of a sample (a defect).", "quantifier": "all attitudes, rates, lever arms, positions, velocities and measurement errors (exact arithmetic)", "why_tests_cant": "quantifies over all real-valued motions and measurement errors", "anchors": ["EKF/control.cpp: controlGpsFusion, controlExternalVisionFusion, controlHeightFusion, controlAuxVelFusion, controlFakePosFusion", "EKF/ekf_helper.cpp: getVisionVelocityInEkfFrame, calcExtVisRotMat"]}
{"id": "C76", "title": "Observation noise is bounded below", "statement": "Whatever accuracy a sensor reports, the observation variance used for GPS position with another aiding source, barometer, range and vision height, vision position and vision velocity is at least that of 1 cm (5 cm/s), innovation gates are at least one and, for a non-negative state variance, the divisor of the gate test is positive, in 32-bit arithmetic. A NaN accuracy is treated as the best possible one for these (a defect); for GPS height and GPS position as the only source a NaN accuracy rejects the sample. GPS velocity and auxiliary velocity have no floor (a defect).", "quantifier": "all 32-bit sensor accuracies, parameters and variances, including NaN and infinities", "why_tests_cant": "quantifies over all floating-point inputs including special values", "anchors": ["EKF/control.cpp: controlGpsFusion, controlHeightFusion, controlExternalVisionFusion", "EKF/ekf_helper.cpp: getGpsHeightVariance"]}
{"id": "C77", "title": "Ground effect dead zone", "statement": "Without ground effect, or when the barometer reads too high, the barometer innovation is fused unchanged (bit for bit, NaN included); in ground effect a reading that is too low is forgiven up to the dead zone: the innovation never changes sign, never grows, changes by at most the dead zone, keeps the order of readings and does not amplify differences.", "quantifier": "all innovations and dead zones (exact arithmetic; unchanged cases also 32-bit)", "why_tests_cant": "quantifies over all real values", "anchors": ["EKF/control.cpp: controlHeightFusion"]}
{"id": "C78", "title": "Barometer offset and static pressure correction", "statement": "While another sensor provides height the offset of the barometer approaches the one that makes it agree with the height estimate: never overshooting, at most 0.1 m/s, within every interval containing its start and all targets, exponentially (time constant ten seconds times max(1 m, initial error)) for a constant target; it is frozen while the barometer is the height source. A NaN reading or height makes it NaN for good (a defect). The static pressure correction is exact for a pressure error of half density times coefficient times squared speed per axis up to the maximum speed, independent of the density, bounded for any speed, and absent with zero coefficients.", "quantifier": "all histories of barometer samples; all speeds, winds, attitudes and coefficients (exact arithmetic; NaN: 32-bit)", "why_tests_cant": "history property; quantifies over all real-valued samples", "anchors": ["EKF/ekf_helper.cpp: updateBaroHgtOffset, compensateBaroForDynamicPressure"]}
{"id": "C79", "title": "Changing and resetting the height source", "statement": "Starting GPS height is continuous: later innovations are exactly the movement of the estimate against that of the GPS height. Starting range height is continuous above the ground clearance, and refers to the terrain estimate when that is valid. After a height reset the measurement it used has no innovation, and neither has the barometer after a range or GPS reset. Falling back from the barometer to GPS because of a height failure moves the estimate only by the difference of two GPS samples, so the height error stays while the variance becomes that of the GPS (a defect). Falling back to the barometer moves the height by the tracking error of its offset, which decays exponentially. Below the ground clearance a range start or reset leaves a positive innovation (a defect).", "quantifier": "all states, samples and histories of barometer samples (exact arithmetic)", "why_tests_cant": "quantifies over all states and histories", "anchors": ["EKF/control.cpp: controlHeightFusion, controlHeightSensorTimeouts", "EKF/ekf_helper.cpp: startGpsHgtFusion, startBaroHgtFusion, resetHeight"]}
{"id": "C80", "title": "Magnetic field check and observability from motion", "statement": "The magnetic field is declared disturbed exactly when the check is on and its strength differs from the table value by more than 0.2 Gauss (location known) or lies outside 0.05 to 0.85 Gauss, independently of the attitude; a NaN component counts as disturbed. Over any history the heading is declared observable exactly if at some sample the horizontal acceleration exceeded twice the gate with position aiding and has exceeded the gate with aiding ever since. A vehicle that always turns slower than the gate never makes the magnetometer biases observable; one that turns steadily faster does from the first check after the rate filter has settled, for as long as it turns.", "quantifier": "all fields, attitudes, histories of accelerations and of yaw motion (exact arithmetic; NaN: 32-bit)", "why_tests_cant": "history property; quantifies over all real-valued samples", "anchors": ["EKF/mag_control.cpp: checkMagFieldStrength, checkYawAngleObservability, checkMagBiasObservability, check3DMagFusionSuitability", "EKF/ekf.cpp: calculateOutputStates"]}
{"id": "C81", "title": "Motion on the ground and optical flow samples", "statement": "On the ground motion is excessive exactly when the filtered specific force is above 1.5 g or below 0.5 g, the filtered rate exceeds the sensor limit or the tilt exceeds 30 degrees; the rate filter is the maximum of the exponentially decayed past rates, the force filter converges geometrically, so a vehicle at rest is found fit after finitely many samples whatever happened before; a NaN in the force filter stays and disables the force test for good (a defect). A flow sample is used, compensated for rotation, exactly when its quality, magnitude, tilt and period (80 to 120 % of the inertial interval, 1 ms to 0.2 s) are good; on the ground otherwise as zero flow with a period of at least 1 ms; otherwise it is dropped, so in flight a sensor slower than 4 Hz is never used. Without a sensor gyro the compensation is exact. With one, the bias estimate stays within 0.1 rad/s and converges geometrically to the true bias without rotation, but to bias minus twice the rotation rate (clipped) while rotating (a defect: sign error). A NaN flow passes the magnitude check (a defect).", "quantifier": "all histories of inertial and flow samples (exact arithmetic; NaN: 32-bit)", "why_tests_cant": "history property; quantifies over all real-valued samples", "anchors": ["EKF/control.cpp: controlOpticalFlowFusion, updateOnGroundMotionForOpticalFlowChecks", "EKF/optflow_fusion.cpp: calcOptFlowBodyRateComp, updateOptFlow", "EKF/covariance.cpp: predictCovariance"]}
{"id": "C82", "title": "Range aid, barometer fallback, heading failure, antenna heading", "statement": "Range aid is entered within 70 % of the height and speed limits and 10 % of the innovation gate, left outside the limits, and unchanged in between; a NaN velocity counts as slow (a defect). The barometer consistency test accepts innovations up to the square of gate times standard deviation instead of gate times standard deviation, and includes the GPS height offset (defects). A heading failure is declared exactly when observed and estimated velocity are above 1 m/s and four standard deviations and their courses differ by more than 25 degrees. A GPS antenna heading is refused when the baseline is within 30 degrees of the vertical; otherwise the reset makes the heading the measured one, keeps tilt, velocity, position and biases, and the next observation agrees when level or, with the 3-2-1 sequence, with zero mounting offset; with other tilts and offsets it may not (a defect).", "quantifier": "all states, measurements and parameters (exact arithmetic; NaN: 32-bit)", "why_tests_cant": "quantifies over all real-valued states and measurements", "anchors": ["EKF/control.cpp: checkRangeAidSuitability, controlHeightSensorTimeouts, controlGpsFusion", "EKF/gps_yaw_fusion.cpp: resetYawToGps"]}
{"id": "C83", "title": "Published outputs", "statement": "After every update the published position and velocity are those of the body origin: the predicted position and velocity of the IMU minus the lever arm and its velocity for the published attitude and the measured angular rate; the published acceleration is the bias-corrected specific force in earth axes plus gravity, and equals the rate of change of the predicted velocity. For a rigid body the position is exact and the velocity is wrong by gyro bias x lever arm, because the estimated bias is not removed (a defect). The attitude predicted from a delivered sample is the one published after the update that uses it; read after that update it counts the sample twice (a defect). The published vision alignment takes the vision attitude to the filter attitude; the earth rate is the rotation vector of the earth in local axes; published biases stay within 100/99 of the limits; published covariance blocks are positive semidefinite; published bias variances are divided by the interval instead of its square, 50 to 200 times too small (a defect).", "quantifier": "all histories of updates and resets; all rigid body motions, attitudes, lever arms, latitudes (exact arithmetic)", "why_tests_cant": "history property; quantifies over all real-valued states and motions", "anchors": ["EKF/estimator_interface.h: getPosition, getVelocity, getVelocityDerivative, getVerticalPositionDerivative", "EKF/ekf.h: getGyroBias, getGyroBiasVariance, getAccelBias, getVisionAlignmentQuaternion", "EKF/ekf.cpp: calculateOutputStates, calculate_quaternion", "EKF/ekf_helper.cpp: calcEarthRateNED, getStateAtFusionHorizonAsVector"]}
{"id": "C84", "title": "Bias process noise is not lost to rounding", "statement": "In the 32-bit arithmetic of the code the gyro bias variance after any number of covariance predictions equals the starting variance plus every noise increment up to a relative error of three half-ulps plus a second order term (2 n 2^-48), whatever the IMU data, flags and other parameters do, although each increment is smaller than the rounding step of the variance (with default parameters plain addition would never change it). The same bound holds for the compensated summation routine alone over any list of non-negative increments.", "quantifier": "all numbers of predictions up to 2^44, all 32-bit inputs, states and flags", "why_tests_cant": "rounding error bound over unbounded runs of 32-bit arithmetic", "anchors": ["EKF/utils.cpp: kahanSummation", "EKF/covariance.cpp: predictCovariance", "EKF/covariance.cpp: initialiseCovariance"]}
{"id": "C85", "title": "Drag observations are means of specific force", "statement": "While drag fusion is selected, every group of r (5 to 255, from the buffer lengths) accepted IMU samples yields one drag observation: accumulated delta velocity over accumulated period, which lies between the accelerations of the group and equals a constant acceleration exactly, stamped with the mean time of the group; a NaN sample spoils only its own group. Only the raw IMU sample that completes a down-sampled one is accepted, so the specific force measured in between is ignored and the observation can differ arbitrarily from the mean specific force (a defect). Inputs received while drag fusion is deselected do not clear the accumulators, so a group is bridged over a gap of any length and its stamp is the mean across the gap (a defect).", "quantifier": "all IMU streams, group sizes, selection histories; group structure for any arithmetic including 32-bit", "why_tests_cant": "history property over unbounded sample streams", "anchors": ["EKF/estimator_interface.cpp: setDragData, setIMUData", "EKF/imu_down_sampler.cpp: ImuDownSampler::update"]}
{"id": "C86", "title": "Sensor buffers are memory safe", "statement": "As long as memory allocations succeed, no sequence of allocations (any sizes, including zero and re-sizing), insertions, time-based reads and looks at the newest or oldest sample ever accesses memory outside the buffer or divides by zero, and every result is that of the reference queue. Sensor deliveries with successful allocation never fault. After a failed allocation the sensor is latched as failed and later deliveries never touch the storage; but a failed enlargement keeps the old length with released storage, so the next filter update, which still reads the buffer, goes through a null pointer (a defect).", "quantifier": "all operation sequences, sizes, samples and allocation outcomes", "why_tests_cant": "memory safety over unbounded operation sequences and allocation failures", "anchors": ["EKF/RingBuffer.h: allocate, push, pop_first_older_than", "EKF/estimator_interface.cpp: setMagData, setGpsData, setBaroData, setAirspeedData, setRangeData, setOpticalFlowData, setExtVisionData, setAuxVelData"]}
{"id": "C87", "title": "Re-initialising the estimator", "statement": "After a re-initialisation no height, heading or aiding source is reported and nothing is aligned; the first height source is the barometer; at most one height source, the exclusivity of heading sources, the limits on emergency heading resets and all other history properties of the control logic hold over histories with any number of re-initialisations. Latched faults (for instance of the GPS heading), observability decisions, time stamps and reset counters survive it (a defect). Once a start-up has completed, a re-initialisation completes on the first usable inertial sample without any new barometer or magnetometer sample; the initial attitude comes from the old smoothed specific force with a tenth of the new sample, so a vehicle turned on its side in between is believed nearly level; the height reference is the old one, not a new sample (defects). The published velocity and position forget their old values: after start-up they are the motion over the buffered interval. The vertical filter's velocity and height (the published vertical position derivative), the integrals of the output tracking errors and the reported tracking errors are not reset: a re-initialised vehicle is published as climbing at its old speed, and the first correction displaces the published velocity and position by what earlier errors have accumulated, although there is no error (defects).", "quantifier": "all histories with re-initialisations; all start-up histories and samples", "why_tests_cant": "history property over unbounded runs", "anchors": ["EKF/ekf.cpp: init, reset, initialiseFilter, initialiseTilt, calculateOutputStates", "EKF/ekf_helper.cpp: alignOutputFilter", "EKF/control.cpp: controlFusionModes"]}
{"id": "C88", "title": "Repeated observations are averaged", "statement": "After any number of velocity, position and height observations each velocity and position variance is at most the larger of its floor (1e-6) and the inverse of prior information plus the information of the observations of that axis, whatever the correlations and other observations. Observations of one axis (above the floor) give exactly the information-weighted average of prior and observed values, in whatever order they arrive. Observed repeatedly at the same value the estimate approaches it without overshoot at least as fast as the inverse of the accumulated information, and even at the variance floor geometrically: the filter never stops listening.", "quantifier": "all histories of observations, axes, values, variances and correlations (exact arithmetic)", "why_tests_cant": "history property over unbounded real-valued observation sequences", "anchors": ["EKF/vel_pos_fusion.cpp: fuseVelPosHeight", "EKF/ekf_helper.cpp: fuse", "EKF/covariance.cpp: fixCovarianceErrors"]}
{"id": "C89", "title": "Setting and moving the local origin", "statement": "While the filter is aided, any sequence of user changes of the origin leaves the believed place on the globe and altitude where they were (unless the vehicle is at the antipode of a new origin), reports the requested origin and publishes the change of the local position as a reset applied to outputs and states alike. A user-set origin is not thereby valid and the earth rate stays that of the old one (defects). A change of altitude by d shifts the innovations of barometer, range and vision height by d and the height above ground by -d; GPS samples already buffered keep coordinates of the old origin, so their innovations jump by the whole movement (defects). The first origin taken from GPS puts that sample at (0,0) without aiding; with aiding it is at exactly the distance of the local position, its East coordinate scaled by the ratio of the cosines of the latitudes (a defect near the poles), and the believed altitude is that of the receiver. 2D fixes are ignored altogether, and samples delivered before the origin is valid are stored at (0,0) wherever they are (defects).", "quantifier": "all origins, positions, altitudes and sequences of changes (exact arithmetic)", "why_tests_cant": "quantifies over all points of the sphere and all sequences of changes", "anchors": ["EKF/ekf_helper.cpp: setEkfGlobalOrigin, getEkfGlobalOrigin", "EKF/gps_checks.cpp: collect_gps", "EKF/estimator_interface.cpp: setGpsData", "geo/geo.cpp: map_projection_project, map_projection_reproject"]}
{"id": "C90", "title": "A NaN in a sensor sample", "statement": "In single precision a NaN airspeed, optical flow rate, magnetometer component or heading is never rejected by the innovation gate: unless the covariance test stops it, it is fused, recorded as a good measurement and turns all 24 states into NaN; a NaN delta angle turns attitude, velocity and position, a NaN delta velocity turns velocity and position into NaN (defects). A NaN drag axis, velocity, position or height (all axes) is ignored. Once a component of the attitude is NaN no sequence of predictions, measurement updates, heading resets or resets of other states makes the attitude finite again, every prediction makes velocity and position NaN again, and within two calls the published attitude is NaN and stays so: only re-initialisation ends it (a defect). A NaN sample interval makes the filter's average interval NaN for good: the filter's own attitude can stay good, but every attitude published from then on is NaN, and the limits on the bias states no longer act (a defect).", "quantifier": "all states, covariances, samples and histories, in binary32, for C library functions that return NaN for NaN", "why_tests_cant": "quantifies over all float states and unbounded histories after the fault", "anchors": ["EKF/airspeed_fusion.cpp: fuseAirspeed", "EKF/optflow_fusion.cpp: fuseOptFlow", "EKF/mag_fusion.cpp: fuseMag, updateQuaternion", "EKF/drag_fusion.cpp: fuseDrag", "EKF/ekf.cpp: predictState, calculateOutputStates", "EKF/ekf_helper.cpp: fuse, constrainStates, resetQuatStateYaw"]}
{"id": "C91", "title": "Observations computed rather than measured", "statement": "The earth field predicted from the magnetic table has the tabulated strength, inclination (downwards positive) and declination. The synthesised magnetometer z component completes the measured x and y to a vector of that strength (or is zero when they are already longer) and the measured z has no influence on it; with exact x and y it is the true component whenever the estimated attitude puts the field on the right side of the body xy plane, however wrong it is otherwise, and exactly the mirrored one when it does not (a defect where the field is nearly in that plane). The optical flow noise lies between the two configured values (neither below 0.05 rad/s), is linear and monotone in the reported quality, the best at quality 255 and the worst at or below the required quality. The reported true airspeed is the length of the velocity relative to the wind, the number airspeed fusion compares the sensor with.", "quantifier": "all fields, attitudes, samples, qualities and configured noises (exact arithmetic)", "why_tests_cant": "quantifies over all real fields and attitudes", "anchors": ["EKF/mag_fusion.cpp: calculate_synthetic_mag_z_measurement", "EKF/control.cpp: controlFusionModes", "EKF/optflow_fusion.cpp: calcOptFlowMeasVar", "EKF/airspeed_fusion.cpp: get_true_airspeed"]}
{"id": "C92", "title": "Several observations: least squares, order, horizontal pairs", "statement": "Away from the variance limits the estimate of all states other than the attitude after any history of velocity, position and height observations is the unique weighted least squares estimate - prior deviation in the metric of the prior covariance plus squared residuals over their variances - with the corresponding covariance, for every correlation of the prior, singular or not; the order in which the observations are processed does not matter. The two horizontal axes of one sample are fused with innovations computed before the first: the reported covariance is then still exactly the covariance of the errors of the estimate computed, but the estimate is the least squares one only if the axes are uncorrelated, and otherwise the variance of the second axis is larger than it need be (a defect).", "quantifier": "all histories, priors, correlations, values and variances (exact arithmetic)", "why_tests_cant": "quantifies over all real priors and unbounded sequences and their permutations", "anchors": ["EKF/vel_pos_fusion.cpp: fuseHorizontalVelocity, fuseHorizontalPosition, fuseVelPosHeight", "EKF/ekf_helper.cpp: fuse", "EKF/covariance.cpp: fixCovarianceErrors"]}
{"id": "C93", "title": "The place of the origin does not matter", "statement": "Two estimators that see the same flight, one counting all positions and heights from an origin displaced by d, stay the same for ever: after any sequence of predictions, fusions, resets and terrain updates their positions differ by d, their terrain heights by the vertical part of d, and everything else - velocities, attitude, biases, wind, covariances, innovations, test ratios, rejection and fault flags - is equal, as long as no position reaches its limit of 1000 km. One exception (a defect): a terrain estimator started in the air from an optical flow sample alone takes max(0, position down) as the terrain height, which depends on where the origin is", "quantifier": "all sequences of operations, inputs, parameters, states and displacements (exact arithmetic)", "why_tests_cant": "a test flies one sequence from one origin; the claim compares all sequences from all origins", "anchors": ["EKF/ekf.cpp: predictState, update", "EKF/ekf_helper.cpp: resetHorizontalPositionTo, resetVerticalPositionTo, fuse", "EKF/vel_pos_fusion.cpp", "EKF/gps_fusion.cpp", "EKF/terrain_estimator.cpp: initHagl, fuseHagl, fuseFlowForTerrain", "EKF/optflow_fusion.cpp: fuseOptFlow", "EKF/control.cpp: controlExternalVisionFusion"]}
{"id": "C94", "title": "Exact measurements do not disturb a correct estimate", "statement": "An estimator whose states agree with the vehicle and whose sensors all read exactly what they should on that vehicle - airspeed, sideslip (coordinated flight), drag force, optical flow, magnetometer, declination, GPS yaw, heading from magnetometer, vision or rest, GPS velocity and position at the antenna, height of each source, vision velocity, position and displacement - keeps all 24 states equal to the trajectory given by the inertial measurements and the commanded resets alone, after any sequence of predictions, fusions and resets and whatever the covariance, gates and noise parameters (for airspeed and sideslip the covariance must not have negative variances, since otherwise the wind is reset; the attitude is a unit quaternion, the field estimate is inside its limits, and the first vision displacement finds no innovation left over)", "quantifier": "all sequences of operations, vehicle states, covariances, parameters and lever arms (exact arithmetic)", "why_tests_cant": "a sign, frame or lever arm error in one sensor model against the others shows only for some attitude and motion; the claim covers all of them and all interleavings", "anchors": ["EKF/mag_fusion.cpp", "EKF/gps_yaw_fusion.cpp", "EKF/airspeed_fusion.cpp", "EKF/sideslip_fusion.cpp", "EKF/drag_fusion.cpp", "EKF/optflow_fusion.cpp", "EKF/vel_pos_fusion.cpp", "EKF/control.cpp: controlGpsFusion, controlHeightFusion, controlExternalVisionFusion", "EKF/ekf_helper.cpp: fuse, resetQuatStateYaw", "EKF/ekf.cpp: predictState"]}
{"id": "C95", "title": "Attitude initialisation and yaw resets in single precision", "statement": "In single precision, with trigonometric functions accurate to 3e-7, a yaw reset of a (nearly) unit attitude to a finite heading never produces NaN or infinity, changes only the attitude, leaves a unit quaternion to 1/4000 however often it is repeated, keeps the tilt to 1/4000 plus twice the error of the old norm and sets the requested heading - about the axis furthest from vertical, whatever the tilt; the attitude every prediction and measurement update leaves is fit for that. At start-up an accepted specific force lies between 7.7 and 11.9 m/s2, the arc sine never leaves its domain whatever the rounding, and the first attitude is finite, a unit quaternion to 1/4000 and turns the measured force upwards to 0.0013 (0.004 with the nose within 12 degrees of vertical). An infinite specific force is refused; a NaN one is not: the filter starts with an attitude of NaN (a defect).", "quantifier": "all finite attitudes, headings, specific forces and rates in binary32, all library functions within the accuracy, any number of resets", "why_tests_cant": "quantifies over all floats: the matrix-to-quaternion branches and the arc sine near +-1 are where rounding could produce NaN, and no test enumerates them", "anchors": ["EKF/ekf.cpp: initialiseTilt", "EKF/ekf_helper.cpp: resetQuatStateYaw", "EKF/utils.cpp: updateYawInRotMat, updateEuler321YawInRotMat, updateEuler312YawInRotMat, shouldUse321RotationSequence"]}
{"id": "C96", "title": "Ordinary data never produce NaN", "statement": "In single precision, with library functions accurate to 3e-7, no sequence of predictions, measurement updates, heading resets and resets of other states ever produces NaN or infinity, as long as each is ordinary: inertial samples of at most 4 rad, 10000 m/s and 1 s, attitude corrections of at most 1/8 per component and other corrections of at most two million per update, finite resets. The attitude stays a unit quaternion to 1/4000 for ever (no drift, however long the history), the average update interval stays within 4 to 22 ms, no number of corrections carries a state beyond 2^45, and every prediction brings all states back within their limits. A predicted attitude is the old one turned by the measured rotation less bias and earth rotation, to 1e-4 per component, from the smallest to the largest rotations. Start-up leaves a filter in this condition. The bound on attitude corrections is needed: an update that cancels the attitude leaves NaN.", "quantifier": "all histories of ordinary operations, all states and samples within the bounds, in binary32, all library functions within the accuracy", "why_tests_cant": "absence of NaN over unbounded histories of float operations cannot be tested", "anchors": ["EKF/ekf.cpp: predictState", "EKF/ekf_helper.cpp: fuse, constrainStates, resetQuatStateYaw"]}
{"id": "C97", "title": "The published attitude stays a unit quaternion", "statement": "In single precision, with ordinary data (inertial samples up to 4 rad, a filter attitude that is a unit quaternion, plausible intervals): after every call of the output predictor the published attitude quaternion is finite and of unit length to 5e-5, whatever sequence of calls, corrections, velocity/position/height/attitude resets and alignments came before, as long as no more than 3000 attitude resets were passed on to the predictor (the buffered attitudes are multiplied by each reset without being normalised again). It is the attitude published before, turned by the measured angle less the scaled gyro bias plus the correction and normalised, to 1e-4 per component; that angle is computed to 1e-6 rad; and the correction towards the filter's delayed attitude never exceeds 1.1 rad about any axis in one call. The state right after the filter starts is of this kind.", "quantifier": "all histories of predictor calls, resets and alignments, all buffer lengths, all finite sample values within the bounds, every C library whose sine and cosine are accurate to 3e-7", "why_tests_cant": "A test samples a few flights; a rounding problem, an overflow or a division by zero in a quaternion inverse shows only for particular values and long histories.", "anchors": ["EKF/ekf.cpp:calculateOutputStates l.321-462", "EKF/ekf_helper.cpp:alignOutputFilter l.335-358", "EKF/ekf_helper.cpp:resetQuatStateYaw l.1549-1592"]}
{"id": "C98", "title": "A timed-out vision update after its reset", "statement": "When an absolute vision position arrives after the position time-out, the position is first reset onto the measurement with the variance d of the sample, but the innovation fused with the sample was formed before the reset. So if the sample is accepted, the position ends on the other side of the measurement: the difference from the measurement is multiplied by -d/(d + o), o the observation variance, which is -1/2 for every variance of at least (1 cm)^2 and unrotated axes (a defect: the sample is used twice, the second time with an error that no longer exists). Whether it is accepted is decided by the old difference against the variance after the reset; if it is rejected, the position sits exactly on the measurement reported as rejected, and the time of the last good position is not advanced. Vision velocity has the same defect for its horizontal components. The synthetic position forms its innovation after its reset, so it has nothing left to correct. After a GPS reset the innovations of the same update are exactly the lever arm terms the reset left out.", "quantifier": "all samples, frames, gates, states and covariances clear of the variance limits; exact arithmetic", "why_tests_cant": "quantifies over all states before the reset and all variances", "anchors": ["EKF/control.cpp: controlExternalVisionFusion, controlFakePosFusion", "EKF/ekf_helper.cpp: resetHorizontalPosition, resetHorizontalPositionToVision, resetVelocity", "EKF/vel_pos_fusion.cpp: fuseHorizontalPosition, fuseHorizontalVelocity"]}
{"id": "C99", "title": "Reported innovations, variances and test ratios belong together", "statement": "After every history, the horizontal innovations, innovation variances and test ratio reported for a source (GPS, vision or auxiliary velocity; GPS or vision position) are those of one and the same measurement - the last one of that source - with the covariance of that moment, or all zero when nothing was measured since the start or the last stop; likewise the vertical innovation and ratio of velocity, barometer, range, GPS and vision height. No operation for one source alters the report of another, with these exceptions and defects: position hold is reported as GPS position; the auxiliary velocity report is never cleared (its stop function is never called); a heading rejected in the air reports the new variance and ratio next to the previous innovation; terrain estimation from flow replaces the flow innovations but never the flow test ratio. Airspeed, sideslip, drag and magnetometer fusion change no report but their own (the magnetometer also zeroes the heading ratio); each leaves innovation, variance and ratio of this measurement, except that a badly conditioned update leaves its variance next to the previous innovation and ratio, and an accepted magnetometer sample reports the Y variance of after the X axis was fused next to the ratio of before.", "quantifier": "all sources, all histories of fusion and stop operations, all filter states, parameters and values, in any arithmetic (binary32 and exact)", "why_tests_cant": "which report a measurement leaves behind, and whether its parts belong together, depends on the whole history of interleaved sources and stops", "anchors": ["EKF/control.cpp: controlGpsFusion, controlExternalVisionFusion, controlHeightFusion, controlFakePosFusion, controlAuxVelFusion", "EKF/ekf_helper.cpp: getGpsVelPosInnov and the other getters, stopGpsFusion, stopEvFusion, stopFlowFusion, stopAuxVelFusion", "EKF/mag_fusion.cpp: fuseYaw321, fuseYaw312", "EKF/optflow_fusion.cpp: fuseOptFlow", "EKF/terrain_estimator.cpp: fuseFlowForTerrain"]}
