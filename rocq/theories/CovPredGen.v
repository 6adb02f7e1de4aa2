(** * The generated part of [Ekf::predictCovariance]
    GENERATED by tools/gen_cov.py from /repo/EKF/covariance.cpp: do not edit.
    Each [PSk] is the C++ local of the same name, [N_i_j] the right-hand side
    assigned to nextP(i,j); the source line is in the comment above it. *)
From Verif Require Import Scalar.
Section Gen.
Context {T : Type} {S : Scalar T}.
Open Scope scal_scope.
(** inputs: l.103-131, 256-290: quaternion, IMU delta angles/velocities, their
    bias states, update period, IMU noise variances; the covariance matrix *)
Variables (q0 q1 q2 q3 dax day daz dvx dvy dvz dax_b day_b daz_b dvx_b dvy_b dvz_b dt : T).
Variables (daxVar dayVar dazVar dvxVar dvyVar dvzVar : T).
Variable P : nat -> nat -> T.

(** covariance.cpp l.265 *)
Definition PS0 : T := (pow2 (q1)).
(** covariance.cpp l.266 *)
Definition PS1 : T := (slit 1 4)*daxVar.
(** covariance.cpp l.267 *)
Definition PS2 : T := (pow2 (q2)).
(** covariance.cpp l.268 *)
Definition PS3 : T := (slit 1 4)*dayVar.
(** covariance.cpp l.269 *)
Definition PS4 : T := (pow2 (q3)).
(** covariance.cpp l.270 *)
Definition PS5 : T := (slit 1 4)*dazVar.
(** covariance.cpp l.271 *)
Definition PS6 : T := (slit 1 2)*q1.
(** covariance.cpp l.272 *)
Definition PS7 : T := (slit 1 2)*q2.
(** covariance.cpp l.273 *)
Definition PS8 : T := (P 10 11)*PS7.
(** covariance.cpp l.274 *)
Definition PS9 : T := (slit 1 2)*q3.
(** covariance.cpp l.275 *)
Definition PS10 : T := (P 10 12)*PS9.
(** covariance.cpp l.276 *)
Definition PS11 : T := (slit 1 2)*dax - (slit 1 2)*dax_b.
(** covariance.cpp l.277 *)
Definition PS12 : T := (slit 1 2)*day - (slit 1 2)*day_b.
(** covariance.cpp l.278 *)
Definition PS13 : T := (slit 1 2)*daz - (slit 1 2)*daz_b.
(** covariance.cpp l.279 *)
Definition PS14 : T := (P 0 10) - (P 1 10)*PS11 + (P 10 10)*PS6 - (P 2 10)*PS12 - (P 3 10)*PS13 + PS10 + PS8.
(** covariance.cpp l.280 *)
Definition PS15 : T := (P 10 11)*PS6.
(** covariance.cpp l.281 *)
Definition PS16 : T := (P 11 12)*PS9.
(** covariance.cpp l.282 *)
Definition PS17 : T := (P 0 11) - (P 1 11)*PS11 + (P 11 11)*PS7 - (P 2 11)*PS12 - (P 3 11)*PS13 + PS15 + PS16.
(** covariance.cpp l.283 *)
Definition PS18 : T := (P 10 12)*PS6.
(** covariance.cpp l.284 *)
Definition PS19 : T := (P 11 12)*PS7.
(** covariance.cpp l.285 *)
Definition PS20 : T := (P 0 12) - (P 1 12)*PS11 + (P 12 12)*PS9 - (P 2 12)*PS12 - (P 3 12)*PS13 + PS18 + PS19.
(** covariance.cpp l.286 *)
Definition PS21 : T := (P 1 2)*PS12.
(** covariance.cpp l.287 *)
Definition PS22 : T := -(P 1 3)*PS13.
(** covariance.cpp l.288 *)
Definition PS23 : T := (P 0 1) - (P 1 1)*PS11 + (P 1 10)*PS6 + (P 1 11)*PS7 + (P 1 12)*PS9 - PS21 + PS22.
(** covariance.cpp l.289 *)
Definition PS24 : T := -(P 1 2)*PS11.
(** covariance.cpp l.290 *)
Definition PS25 : T := (P 2 3)*PS13.
(** covariance.cpp l.291 *)
Definition PS26 : T := (P 0 2) + (P 2 10)*PS6 + (P 2 11)*PS7 + (P 2 12)*PS9 - (P 2 2)*PS12 + PS24 - PS25.
(** covariance.cpp l.292 *)
Definition PS27 : T := (P 1 3)*PS11.
(** covariance.cpp l.293 *)
Definition PS28 : T := -(P 2 3)*PS12.
(** covariance.cpp l.294 *)
Definition PS29 : T := (P 0 3) + (P 3 10)*PS6 + (P 3 11)*PS7 + (P 3 12)*PS9 - (P 3 3)*PS13 - PS27 + PS28.
(** covariance.cpp l.295 *)
Definition PS30 : T := (P 0 1)*PS11.
(** covariance.cpp l.296 *)
Definition PS31 : T := (P 0 2)*PS12.
(** covariance.cpp l.297 *)
Definition PS32 : T := (P 0 3)*PS13.
(** covariance.cpp l.298 *)
Definition PS33 : T := (P 0 0) + (P 0 10)*PS6 + (P 0 11)*PS7 + (P 0 12)*PS9 - PS30 - PS31 - PS32.
(** covariance.cpp l.299 *)
Definition PS34 : T := (slit 1 2)*q0.
(** covariance.cpp l.300 *)
Definition PS35 : T := q2*q3.
(** covariance.cpp l.301 *)
Definition PS36 : T := q0*q1.
(** covariance.cpp l.302 *)
Definition PS37 : T := q1*q3.
(** covariance.cpp l.303 *)
Definition PS38 : T := q0*q2.
(** covariance.cpp l.304 *)
Definition PS39 : T := q1*q2.
(** covariance.cpp l.305 *)
Definition PS40 : T := q0*q3.
(** covariance.cpp l.306 *)
Definition PS41 : T := -PS2.
(** covariance.cpp l.307 *)
Definition PS42 : T := (pow2 (q0)).
(** covariance.cpp l.308 *)
Definition PS43 : T := -PS4 + PS42.
(** covariance.cpp l.309 *)
Definition PS44 : T := PS0 + PS41 + PS43.
(** covariance.cpp l.310 *)
Definition PS45 : T := (P 0 13) - (P 1 13)*PS11 + (P 10 13)*PS6 + (P 11 13)*PS7 + (P 12 13)*PS9 - (P 2 13)*PS12 - (P 3 13)*PS13.
(** covariance.cpp l.311 *)
Definition PS46 : T := PS37 + PS38.
(** covariance.cpp l.312 *)
Definition PS47 : T := (P 0 15) - (P 1 15)*PS11 + (P 10 15)*PS6 + (P 11 15)*PS7 + (P 12 15)*PS9 - (P 2 15)*PS12 - (P 3 15)*PS13.
(** covariance.cpp l.313 *)
Definition PS48 : T := (slit 2 1)*PS47.
(** covariance.cpp l.314 *)
Definition PS49 : T := dvy - dvy_b.
(** covariance.cpp l.315 *)
Definition PS50 : T := dvx - dvx_b.
(** covariance.cpp l.316 *)
Definition PS51 : T := dvz - dvz_b.
(** covariance.cpp l.317 *)
Definition PS52 : T := PS49*q0 + PS50*q3 - PS51*q1.
(** covariance.cpp l.318 *)
Definition PS53 : T := (slit 2 1)*PS29.
(** covariance.cpp l.319 *)
Definition PS54 : T := -PS39 + PS40.
(** covariance.cpp l.320 *)
Definition PS55 : T := (P 0 14) - (P 1 14)*PS11 + (P 10 14)*PS6 + (P 11 14)*PS7 + (P 12 14)*PS9 - (P 2 14)*PS12 - (P 3 14)*PS13.
(** covariance.cpp l.321 *)
Definition PS56 : T := (slit 2 1)*PS55.
(** covariance.cpp l.322 *)
Definition PS57 : T := -PS49*q3 + PS50*q0 + PS51*q2.
(** covariance.cpp l.323 *)
Definition PS58 : T := (slit 2 1)*PS33.
(** covariance.cpp l.324 *)
Definition PS59 : T := PS49*q1 - PS50*q2 + PS51*q0.
(** covariance.cpp l.325 *)
Definition PS60 : T := (slit 2 1)*PS59.
(** covariance.cpp l.326 *)
Definition PS61 : T := PS49*q2 + PS50*q1 + PS51*q3.
(** covariance.cpp l.327 *)
Definition PS62 : T := (slit 2 1)*PS61.
(** covariance.cpp l.328 *)
Definition PS63 : T := (P 0 4) - (P 1 4)*PS11 - (P 2 4)*PS12 - (P 3 4)*PS13 + (P 4 10)*PS6 + (P 4 11)*PS7 + (P 4 12)*PS9.
(** covariance.cpp l.329 *)
Definition PS64 : T := -PS0.
(** covariance.cpp l.330 *)
Definition PS65 : T := PS2 + PS43 + PS64.
(** covariance.cpp l.331 *)
Definition PS66 : T := PS39 + PS40.
(** covariance.cpp l.332 *)
Definition PS67 : T := (slit 2 1)*PS45.
(** covariance.cpp l.333 *)
Definition PS68 : T := -PS35 + PS36.
(** covariance.cpp l.334 *)
Definition PS69 : T := (P 0 5) - (P 1 5)*PS11 - (P 2 5)*PS12 - (P 3 5)*PS13 + (P 5 10)*PS6 + (P 5 11)*PS7 + (P 5 12)*PS9.
(** covariance.cpp l.335 *)
Definition PS70 : T := PS4 + PS41 + PS42 + PS64.
(** covariance.cpp l.336 *)
Definition PS71 : T := PS35 + PS36.
(** covariance.cpp l.337 *)
Definition PS72 : T := (slit 2 1)*PS57.
(** covariance.cpp l.338 *)
Definition PS73 : T := -PS37 + PS38.
(** covariance.cpp l.339 *)
Definition PS74 : T := (slit 2 1)*PS52.
(** covariance.cpp l.340 *)
Definition PS75 : T := (P 0 6) - (P 1 6)*PS11 - (P 2 6)*PS12 - (P 3 6)*PS13 + (P 6 10)*PS6 + (P 6 11)*PS7 + (P 6 12)*PS9.
(** covariance.cpp l.341 *)
Definition PS76 : T := -(P 10 11)*PS34.
(** covariance.cpp l.342 *)
Definition PS77 : T := (P 0 11)*PS11 + (P 1 11) + (P 11 11)*PS9 + (P 2 11)*PS13 - (P 3 11)*PS12 - PS19 + PS76.
(** covariance.cpp l.343 *)
Definition PS78 : T := (P 0 2)*PS13.
(** covariance.cpp l.344 *)
Definition PS79 : T := (P 0 3)*PS12.
(** covariance.cpp l.345 *)
Definition PS80 : T := (P 0 0)*PS11 + (P 0 1) - (P 0 10)*PS34 + (P 0 11)*PS9 - (P 0 12)*PS7 + PS78 - PS79.
(** covariance.cpp l.346 *)
Definition PS81 : T := (P 0 2)*PS11.
(** covariance.cpp l.347 *)
Definition PS82 : T := (P 1 2) - (P 2 10)*PS34 + (P 2 11)*PS9 - (P 2 12)*PS7 + (P 2 2)*PS13 + PS28 + PS81.
(** covariance.cpp l.348 *)
Definition PS83 : T := (P 10 11)*PS9.
(** covariance.cpp l.349 *)
Definition PS84 : T := (P 10 12)*PS7.
(** covariance.cpp l.350 *)
Definition PS85 : T := (P 0 10)*PS11 + (P 1 10) - (P 10 10)*PS34 + (P 2 10)*PS13 - (P 3 10)*PS12 + PS83 - PS84.
(** covariance.cpp l.351 *)
Definition PS86 : T := -(P 10 12)*PS34.
(** covariance.cpp l.352 *)
Definition PS87 : T := (P 0 12)*PS11 + (P 1 12) - (P 12 12)*PS7 + (P 2 12)*PS13 - (P 3 12)*PS12 + PS16 + PS86.
(** covariance.cpp l.353 *)
Definition PS88 : T := (P 0 3)*PS11.
(** covariance.cpp l.354 *)
Definition PS89 : T := (P 1 3) - (P 3 10)*PS34 + (P 3 11)*PS9 - (P 3 12)*PS7 - (P 3 3)*PS12 + PS25 + PS88.
(** covariance.cpp l.355 *)
Definition PS90 : T := (P 1 2)*PS13.
(** covariance.cpp l.356 *)
Definition PS91 : T := (P 1 3)*PS12.
(** covariance.cpp l.357 *)
Definition PS92 : T := (P 1 1) - (P 1 10)*PS34 + (P 1 11)*PS9 - (P 1 12)*PS7 + PS30 + PS90 - PS91.
(** covariance.cpp l.358 *)
Definition PS93 : T := (P 0 13)*PS11 + (P 1 13) - (P 10 13)*PS34 + (P 11 13)*PS9 - (P 12 13)*PS7 + (P 2 13)*PS13 - (P 3 13)*PS12.
(** covariance.cpp l.359 *)
Definition PS94 : T := (P 0 15)*PS11 + (P 1 15) - (P 10 15)*PS34 + (P 11 15)*PS9 - (P 12 15)*PS7 + (P 2 15)*PS13 - (P 3 15)*PS12.
(** covariance.cpp l.360 *)
Definition PS95 : T := (slit 2 1)*PS94.
(** covariance.cpp l.361 *)
Definition PS96 : T := (P 0 14)*PS11 + (P 1 14) - (P 10 14)*PS34 + (P 11 14)*PS9 - (P 12 14)*PS7 + (P 2 14)*PS13 - (P 3 14)*PS12.
(** covariance.cpp l.362 *)
Definition PS97 : T := (slit 2 1)*PS96.
(** covariance.cpp l.363 *)
Definition PS98 : T := (P 0 4)*PS11 + (P 1 4) + (P 2 4)*PS13 - (P 3 4)*PS12 - (P 4 10)*PS34 + (P 4 11)*PS9 - (P 4 12)*PS7.
(** covariance.cpp l.364 *)
Definition PS99 : T := (slit 2 1)*PS93.
(** covariance.cpp l.365 *)
Definition PS100 : T := (P 0 5)*PS11 + (P 1 5) + (P 2 5)*PS13 - (P 3 5)*PS12 - (P 5 10)*PS34 + (P 5 11)*PS9 - (P 5 12)*PS7.
(** covariance.cpp l.366 *)
Definition PS101 : T := (P 0 6)*PS11 + (P 1 6) + (P 2 6)*PS13 - (P 3 6)*PS12 - (P 6 10)*PS34 + (P 6 11)*PS9 - (P 6 12)*PS7.
(** covariance.cpp l.367 *)
Definition PS102 : T := -(P 11 12)*PS34.
(** covariance.cpp l.368 *)
Definition PS103 : T := (P 0 12)*PS12 - (P 1 12)*PS13 + (P 12 12)*PS6 + (P 2 12) + (P 3 12)*PS11 - PS10 + PS102.
(** covariance.cpp l.369 *)
Definition PS104 : T := (P 2 3) - (P 3 10)*PS9 - (P 3 11)*PS34 + (P 3 12)*PS6 + (P 3 3)*PS11 + PS22 + PS79.
(** covariance.cpp l.370 *)
Definition PS105 : T := (P 0 1)*PS13.
(** covariance.cpp l.371 *)
Definition PS106 : T := (P 0 0)*PS12 - (P 0 10)*PS9 - (P 0 11)*PS34 + (P 0 12)*PS6 + (P 0 2) - PS105 + PS88.
(** covariance.cpp l.372 *)
Definition PS107 : T := (P 11 12)*PS6.
(** covariance.cpp l.373 *)
Definition PS108 : T := (P 0 11)*PS12 - (P 1 11)*PS13 - (P 11 11)*PS34 + (P 2 11) + (P 3 11)*PS11 + PS107 - PS83.
(** covariance.cpp l.374 *)
Definition PS109 : T := (P 0 10)*PS12 - (P 1 10)*PS13 - (P 10 10)*PS9 + (P 2 10) + (P 3 10)*PS11 + PS18 + PS76.
(** covariance.cpp l.375 *)
Definition PS110 : T := (P 0 1)*PS12.
(** covariance.cpp l.376 *)
Definition PS111 : T := -(P 1 1)*PS13 - (P 1 10)*PS9 - (P 1 11)*PS34 + (P 1 12)*PS6 + (P 1 2) + PS110 + PS27.
(** covariance.cpp l.377 *)
Definition PS112 : T := (P 2 3)*PS11.
(** covariance.cpp l.378 *)
Definition PS113 : T := -(P 2 10)*PS9 - (P 2 11)*PS34 + (P 2 12)*PS6 + (P 2 2) + PS112 + PS31 - PS90.
(** covariance.cpp l.379 *)
Definition PS114 : T := (P 0 13)*PS12 - (P 1 13)*PS13 - (P 10 13)*PS9 - (P 11 13)*PS34 + (P 12 13)*PS6 + (P 2 13) + (P 3 13)*PS11.
(** covariance.cpp l.380 *)
Definition PS115 : T := (P 0 15)*PS12 - (P 1 15)*PS13 - (P 10 15)*PS9 - (P 11 15)*PS34 + (P 12 15)*PS6 + (P 2 15) + (P 3 15)*PS11.
(** covariance.cpp l.381 *)
Definition PS116 : T := (slit 2 1)*PS115.
(** covariance.cpp l.382 *)
Definition PS117 : T := (P 0 14)*PS12 - (P 1 14)*PS13 - (P 10 14)*PS9 - (P 11 14)*PS34 + (P 12 14)*PS6 + (P 2 14) + (P 3 14)*PS11.
(** covariance.cpp l.383 *)
Definition PS118 : T := (slit 2 1)*PS117.
(** covariance.cpp l.384 *)
Definition PS119 : T := (P 0 4)*PS12 - (P 1 4)*PS13 + (P 2 4) + (P 3 4)*PS11 - (P 4 10)*PS9 - (P 4 11)*PS34 + (P 4 12)*PS6.
(** covariance.cpp l.385 *)
Definition PS120 : T := (slit 2 1)*PS114.
(** covariance.cpp l.386 *)
Definition PS121 : T := (P 0 5)*PS12 - (P 1 5)*PS13 + (P 2 5) + (P 3 5)*PS11 - (P 5 10)*PS9 - (P 5 11)*PS34 + (P 5 12)*PS6.
(** covariance.cpp l.387 *)
Definition PS122 : T := (P 0 6)*PS12 - (P 1 6)*PS13 + (P 2 6) + (P 3 6)*PS11 - (P 6 10)*PS9 - (P 6 11)*PS34 + (P 6 12)*PS6.
(** covariance.cpp l.388 *)
Definition PS123 : T := (P 0 10)*PS13 + (P 1 10)*PS12 + (P 10 10)*PS7 - (P 2 10)*PS11 + (P 3 10) - PS15 + PS86.
(** covariance.cpp l.389 *)
Definition PS124 : T := (P 1 1)*PS12 + (P 1 10)*PS7 - (P 1 11)*PS6 - (P 1 12)*PS34 + (P 1 3) + PS105 + PS24.
(** covariance.cpp l.390 *)
Definition PS125 : T := (P 0 0)*PS13 + (P 0 10)*PS7 - (P 0 11)*PS6 - (P 0 12)*PS34 + (P 0 3) + PS110 - PS81.
(** covariance.cpp l.391 *)
Definition PS126 : T := (P 0 12)*PS13 + (P 1 12)*PS12 - (P 12 12)*PS34 - (P 2 12)*PS11 + (P 3 12) - PS107 + PS84.
(** covariance.cpp l.392 *)
Definition PS127 : T := (P 0 11)*PS13 + (P 1 11)*PS12 - (P 11 11)*PS6 - (P 2 11)*PS11 + (P 3 11) + PS102 + PS8.
(** covariance.cpp l.393 *)
Definition PS128 : T := (P 2 10)*PS7 - (P 2 11)*PS6 - (P 2 12)*PS34 - (P 2 2)*PS11 + (P 2 3) + PS21 + PS78.
(** covariance.cpp l.394 *)
Definition PS129 : T := (P 3 10)*PS7 - (P 3 11)*PS6 - (P 3 12)*PS34 + (P 3 3) - PS112 + PS32 + PS91.
(** covariance.cpp l.395 *)
Definition PS130 : T := (P 0 13)*PS13 + (P 1 13)*PS12 + (P 10 13)*PS7 - (P 11 13)*PS6 - (P 12 13)*PS34 - (P 2 13)*PS11 + (P 3 13).
(** covariance.cpp l.396 *)
Definition PS131 : T := (P 0 15)*PS13 + (P 1 15)*PS12 + (P 10 15)*PS7 - (P 11 15)*PS6 - (P 12 15)*PS34 - (P 2 15)*PS11 + (P 3 15).
(** covariance.cpp l.397 *)
Definition PS132 : T := (slit 2 1)*PS131.
(** covariance.cpp l.398 *)
Definition PS133 : T := (P 0 14)*PS13 + (P 1 14)*PS12 + (P 10 14)*PS7 - (P 11 14)*PS6 - (P 12 14)*PS34 - (P 2 14)*PS11 + (P 3 14).
(** covariance.cpp l.399 *)
Definition PS134 : T := (slit 2 1)*PS133.
(** covariance.cpp l.400 *)
Definition PS135 : T := (P 0 4)*PS13 + (P 1 4)*PS12 - (P 2 4)*PS11 + (P 3 4) + (P 4 10)*PS7 - (P 4 11)*PS6 - (P 4 12)*PS34.
(** covariance.cpp l.401 *)
Definition PS136 : T := (slit 2 1)*PS130.
(** covariance.cpp l.402 *)
Definition PS137 : T := (P 0 5)*PS13 + (P 1 5)*PS12 - (P 2 5)*PS11 + (P 3 5) + (P 5 10)*PS7 - (P 5 11)*PS6 - (P 5 12)*PS34.
(** covariance.cpp l.403 *)
Definition PS138 : T := (P 0 6)*PS13 + (P 1 6)*PS12 - (P 2 6)*PS11 + (P 3 6) + (P 6 10)*PS7 - (P 6 11)*PS6 - (P 6 12)*PS34.
(** covariance.cpp l.404 *)
Definition PS139 : T := (slit 2 1)*PS46.
(** covariance.cpp l.405 *)
Definition PS140 : T := (slit 2 1)*PS54.
(** covariance.cpp l.406 *)
Definition PS141 : T := (P 0 13)*PS72 + (P 1 13)*PS62 - (P 13 13)*PS44 + (P 13 14)*PS140 - (P 13 15)*PS139 + (P 2 13)*PS60 - (P 3 13)*PS74 + (P 4 13).
(** covariance.cpp l.407 *)
Definition PS142 : T := (P 0 15)*PS72 + (P 1 15)*PS62 - (P 13 15)*PS44 + (P 14 15)*PS140 - (P 15 15)*PS139 + (P 2 15)*PS60 - (P 3 15)*PS74 + (P 4 15).
(** covariance.cpp l.408 *)
Definition PS143 : T := (P 1 3)*PS62.
(** covariance.cpp l.409 *)
Definition PS144 : T := (P 0 3)*PS72.
(** covariance.cpp l.410 *)
Definition PS145 : T := (P 2 3)*PS60 - (P 3 13)*PS44 + (P 3 14)*PS140 - (P 3 15)*PS139 - (P 3 3)*PS74 + (P 3 4) + PS143 + PS144.
(** covariance.cpp l.411 *)
Definition PS146 : T := (P 0 14)*PS72 + (P 1 14)*PS62 - (P 13 14)*PS44 + (P 14 14)*PS140 - (P 14 15)*PS139 + (P 2 14)*PS60 - (P 3 14)*PS74 + (P 4 14).
(** covariance.cpp l.412 *)
Definition PS147 : T := (P 0 2)*PS60.
(** covariance.cpp l.413 *)
Definition PS148 : T := (P 0 3)*PS74.
(** covariance.cpp l.414 *)
Definition PS149 : T := (P 0 0)*PS72 + (P 0 1)*PS62 - (P 0 13)*PS44 + (P 0 14)*PS140 - (P 0 15)*PS139 + (P 0 4) + PS147 - PS148.
(** covariance.cpp l.415 *)
Definition PS150 : T := (P 1 2)*PS62.
(** covariance.cpp l.416 *)
Definition PS151 : T := (P 0 2)*PS72.
(** covariance.cpp l.417 *)
Definition PS152 : T := -(P 2 13)*PS44 + (P 2 14)*PS140 - (P 2 15)*PS139 + (P 2 2)*PS60 - (P 2 3)*PS74 + (P 2 4) + PS150 + PS151.
(** covariance.cpp l.418 *)
Definition PS153 : T := (P 1 2)*PS60.
(** covariance.cpp l.419 *)
Definition PS154 : T := (P 1 3)*PS74.
(** covariance.cpp l.420 *)
Definition PS155 : T := (P 0 1)*PS72 + (P 1 1)*PS62 - (P 1 13)*PS44 + (P 1 14)*PS140 - (P 1 15)*PS139 + (P 1 4) + PS153 - PS154.
(** covariance.cpp l.421 *)
Definition PS156 : T := (slit 4 1)*dvyVar.
(** covariance.cpp l.422 *)
Definition PS157 : T := (slit 4 1)*dvzVar.
(** covariance.cpp l.423 *)
Definition PS158 : T := (P 0 4)*PS72 + (P 1 4)*PS62 + (P 2 4)*PS60 - (P 3 4)*PS74 - (P 4 13)*PS44 + (P 4 14)*PS140 - (P 4 15)*PS139 + (P 4 4).
(** covariance.cpp l.424 *)
Definition PS159 : T := (slit 2 1)*PS141.
(** covariance.cpp l.425 *)
Definition PS160 : T := (slit 2 1)*PS68.
(** covariance.cpp l.426 *)
Definition PS161 : T := PS65*dvyVar.
(** covariance.cpp l.427 *)
Definition PS162 : T := (slit 2 1)*PS66.
(** covariance.cpp l.428 *)
Definition PS163 : T := PS44*dvxVar.
(** covariance.cpp l.429 *)
Definition PS164 : T := (P 0 5)*PS72 + (P 1 5)*PS62 + (P 2 5)*PS60 - (P 3 5)*PS74 + (P 4 5) - (P 5 13)*PS44 + (P 5 14)*PS140 - (P 5 15)*PS139.
(** covariance.cpp l.430 *)
Definition PS165 : T := (slit 2 1)*PS71.
(** covariance.cpp l.431 *)
Definition PS166 : T := (slit 2 1)*PS73.
(** covariance.cpp l.432 *)
Definition PS167 : T := PS70*dvzVar.
(** covariance.cpp l.433 *)
Definition PS168 : T := (P 0 6)*PS72 + (P 1 6)*PS62 + (P 2 6)*PS60 - (P 3 6)*PS74 + (P 4 6) - (P 6 13)*PS44 + (P 6 14)*PS140 - (P 6 15)*PS139.
(** covariance.cpp l.434 *)
Definition PS169 : T := (P 0 14)*PS74 - (P 1 14)*PS60 - (P 13 14)*PS162 - (P 14 14)*PS65 + (P 14 15)*PS160 + (P 2 14)*PS62 + (P 3 14)*PS72 + (P 5 14).
(** covariance.cpp l.435 *)
Definition PS170 : T := (P 0 13)*PS74 - (P 1 13)*PS60 - (P 13 13)*PS162 - (P 13 14)*PS65 + (P 13 15)*PS160 + (P 2 13)*PS62 + (P 3 13)*PS72 + (P 5 13).
(** covariance.cpp l.436 *)
Definition PS171 : T := (P 0 1)*PS74.
(** covariance.cpp l.437 *)
Definition PS172 : T := -(P 1 1)*PS60 - (P 1 13)*PS162 - (P 1 14)*PS65 + (P 1 15)*PS160 + (P 1 3)*PS72 + (P 1 5) + PS150 + PS171.
(** covariance.cpp l.438 *)
Definition PS173 : T := (P 0 15)*PS74 - (P 1 15)*PS60 - (P 13 15)*PS162 - (P 14 15)*PS65 + (P 15 15)*PS160 + (P 2 15)*PS62 + (P 3 15)*PS72 + (P 5 15).
(** covariance.cpp l.439 *)
Definition PS174 : T := (P 2 3)*PS62.
(** covariance.cpp l.440 *)
Definition PS175 : T := -(P 1 3)*PS60 - (P 3 13)*PS162 - (P 3 14)*PS65 + (P 3 15)*PS160 + (P 3 3)*PS72 + (P 3 5) + PS148 + PS174.
(** covariance.cpp l.441 *)
Definition PS176 : T := (P 0 1)*PS60.
(** covariance.cpp l.442 *)
Definition PS177 : T := (P 0 0)*PS74 - (P 0 13)*PS162 - (P 0 14)*PS65 + (P 0 15)*PS160 + (P 0 2)*PS62 + (P 0 5) + PS144 - PS176.
(** covariance.cpp l.443 *)
Definition PS178 : T := (P 2 3)*PS72.
(** covariance.cpp l.444 *)
Definition PS179 : T := (P 0 2)*PS74 - (P 2 13)*PS162 - (P 2 14)*PS65 + (P 2 15)*PS160 + (P 2 2)*PS62 + (P 2 5) - PS153 + PS178.
(** covariance.cpp l.445 *)
Definition PS180 : T := (slit 4 1)*dvxVar.
(** covariance.cpp l.446 *)
Definition PS181 : T := (P 0 5)*PS74 - (P 1 5)*PS60 + (P 2 5)*PS62 + (P 3 5)*PS72 - (P 5 13)*PS162 - (P 5 14)*PS65 + (P 5 15)*PS160 + (P 5 5).
(** covariance.cpp l.447 *)
Definition PS182 : T := (P 0 6)*PS74 - (P 1 6)*PS60 + (P 2 6)*PS62 + (P 3 6)*PS72 + (P 5 6) - (P 6 13)*PS162 - (P 6 14)*PS65 + (P 6 15)*PS160.
(** covariance.cpp l.448 *)
Definition PS183 : T := (P 0 15)*PS60 + (P 1 15)*PS74 + (P 13 15)*PS166 - (P 14 15)*PS165 - (P 15 15)*PS70 - (P 2 15)*PS72 + (P 3 15)*PS62 + (P 6 15).
(** covariance.cpp l.449 *)
Definition PS184 : T := (P 0 14)*PS60 + (P 1 14)*PS74 + (P 13 14)*PS166 - (P 14 14)*PS165 - (P 14 15)*PS70 - (P 2 14)*PS72 + (P 3 14)*PS62 + (P 6 14).
(** covariance.cpp l.450 *)
Definition PS185 : T := (P 0 13)*PS60 + (P 1 13)*PS74 + (P 13 13)*PS166 - (P 13 14)*PS165 - (P 13 15)*PS70 - (P 2 13)*PS72 + (P 3 13)*PS62 + (P 6 13).
(** covariance.cpp l.451 *)
Definition PS186 : T := (P 0 6)*PS60 + (P 1 6)*PS74 - (P 2 6)*PS72 + (P 3 6)*PS62 + (P 6 13)*PS166 - (P 6 14)*PS165 - (P 6 15)*PS70 + (P 6 6).
(** covariance.cpp l.457 *)
Definition N_0_0 : T := PS0*PS1 - PS11*PS23 - PS12*PS26 - PS13*PS29 + PS14*PS6 + PS17*PS7 + PS2*PS3 + PS20*PS9 + PS33 + PS4*PS5.
(** covariance.cpp l.458 *)
Definition N_0_1 : T := -PS1*PS36 + PS11*PS33 - PS12*PS29 + PS13*PS26 - PS14*PS34 + PS17*PS9 - PS20*PS7 + PS23 + PS3*PS35 - PS35*PS5.
(** covariance.cpp l.459 *)
Definition N_1_1 : T := PS1*PS42 + PS11*PS80 - PS12*PS89 + PS13*PS82 + PS2*PS5 + PS3*PS4 - PS34*PS85 - PS7*PS87 + PS77*PS9 + PS92.
(** covariance.cpp l.460 *)
Definition N_0_2 : T := -PS1*PS37 + PS11*PS29 + PS12*PS33 - PS13*PS23 - PS14*PS9 - PS17*PS34 + PS20*PS6 + PS26 - PS3*PS38 + PS37*PS5.
(** covariance.cpp l.461 *)
Definition N_1_2 : T := PS1*PS40 + PS11*PS89 + PS12*PS80 - PS13*PS92 - PS3*PS40 - PS34*PS77 - PS39*PS5 + PS6*PS87 + PS82 - PS85*PS9.
(** covariance.cpp l.462 *)
Definition N_2_2 : T := PS0*PS5 + PS1*PS4 + PS103*PS6 + PS104*PS11 + PS106*PS12 - PS108*PS34 - PS109*PS9 - PS111*PS13 + PS113 + PS3*PS42.
(** covariance.cpp l.463 *)
Definition N_0_3 : T := PS1*PS39 - PS11*PS26 + PS12*PS23 + PS13*PS33 + PS14*PS7 - PS17*PS6 - PS20*PS34 + PS29 - PS3*PS39 - PS40*PS5.
(** covariance.cpp l.464 *)
Definition N_1_3 : T := -PS1*PS38 - PS11*PS82 + PS12*PS92 + PS13*PS80 - PS3*PS37 - PS34*PS87 + PS38*PS5 - PS6*PS77 + PS7*PS85 + PS89.
(** covariance.cpp l.465 *)
Definition N_2_3 : T := -PS1*PS35 - PS103*PS34 + PS104 + PS106*PS13 - PS108*PS6 + PS109*PS7 - PS11*PS113 + PS111*PS12 + PS3*PS36 - PS36*PS5.
(** covariance.cpp l.466 *)
Definition N_3_3 : T := PS0*PS3 + PS1*PS2 - PS11*PS128 + PS12*PS124 + PS123*PS7 + PS125*PS13 - PS126*PS34 - PS127*PS6 + PS129 + PS42*PS5.
(** covariance.cpp l.467 *)
Definition N_0_4 : T := PS23*PS62 + PS26*PS60 - PS44*PS45 - PS46*PS48 - PS52*PS53 + PS54*PS56 + PS57*PS58 + PS63.
(** covariance.cpp l.468 *)
Definition N_1_4 : T := -PS44*PS93 - PS46*PS95 + PS54*PS97 + PS60*PS82 + PS62*PS92 + PS72*PS80 - PS74*PS89 + PS98.
(** covariance.cpp l.469 *)
Definition N_2_4 : T := -PS104*PS74 + PS106*PS72 + PS111*PS62 + PS113*PS60 - PS114*PS44 - PS116*PS46 + PS118*PS54 + PS119.
(** covariance.cpp l.470 *)
Definition N_3_4 : T := PS124*PS62 + PS125*PS72 + PS128*PS60 - PS129*PS74 - PS130*PS44 - PS132*PS46 + PS134*PS54 + PS135.
(** covariance.cpp l.471 *)
Definition N_4_4 : T := -PS139*PS142 + PS140*PS146 - PS141*PS44 - PS145*PS74 + PS149*PS72 + PS152*PS60 + PS155*PS62 + PS156*(pow2 (PS54)) + PS157*(pow2 (PS46)) + PS158 + (pow2 (PS44))*dvxVar.
(** covariance.cpp l.472 *)
Definition N_0_5 : T := -PS23*PS60 + PS26*PS62 + PS48*PS68 + PS52*PS58 + PS53*PS57 - PS55*PS65 - PS66*PS67 + PS69.
(** covariance.cpp l.473 *)
Definition N_1_5 : T := PS100 - PS60*PS92 + PS62*PS82 - PS65*PS96 - PS66*PS99 + PS68*PS95 + PS72*PS89 + PS74*PS80.
(** covariance.cpp l.474 *)
Definition N_2_5 : T := PS104*PS72 + PS106*PS74 - PS111*PS60 + PS113*PS62 + PS116*PS68 - PS117*PS65 - PS120*PS66 + PS121.
(** covariance.cpp l.475 *)
Definition N_3_5 : T := -PS124*PS60 + PS125*PS74 + PS128*PS62 + PS129*PS72 + PS132*PS68 - PS133*PS65 - PS136*PS66 + PS137.
(** covariance.cpp l.476 *)
Definition N_4_5 : T := -PS140*PS161 + PS142*PS160 + PS145*PS72 - PS146*PS65 + PS149*PS74 + PS152*PS62 - PS155*PS60 - PS157*PS46*PS68 - PS159*PS66 + PS162*PS163 + PS164.
(** covariance.cpp l.477 *)
Definition N_5_5 : T := PS157*(pow2 (PS68)) + PS160*PS173 - PS162*PS170 - PS169*PS65 - PS172*PS60 + PS175*PS72 + PS177*PS74 + PS179*PS62 + PS180*(pow2 (PS66)) + PS181 + (pow2 (PS65))*dvyVar.
(** covariance.cpp l.478 *)
Definition N_0_6 : T := PS23*PS74 - PS26*PS72 - PS47*PS70 + PS53*PS61 - PS56*PS71 + PS58*PS59 + PS67*PS73 + PS75.
(** covariance.cpp l.479 *)
Definition N_1_6 : T := PS101 + PS60*PS80 + PS62*PS89 - PS70*PS94 - PS71*PS97 - PS72*PS82 + PS73*PS99 + PS74*PS92.
(** covariance.cpp l.480 *)
Definition N_2_6 : T := PS104*PS62 + PS106*PS60 + PS111*PS74 - PS113*PS72 - PS115*PS70 - PS118*PS71 + PS120*PS73 + PS122.
(** covariance.cpp l.481 *)
Definition N_3_6 : T := PS124*PS74 + PS125*PS60 - PS128*PS72 + PS129*PS62 - PS131*PS70 - PS134*PS71 + PS136*PS73 + PS138.
(** covariance.cpp l.482 *)
Definition N_4_6 : T := PS139*PS167 - PS142*PS70 + PS145*PS62 - PS146*PS165 + PS149*PS60 - PS152*PS72 + PS155*PS74 - PS156*PS54*PS71 + PS159*PS73 - PS163*PS166 + PS168.
(** covariance.cpp l.483 *)
Definition N_5_6 : T := -PS160*PS167 + PS161*PS165 - PS165*PS169 + PS166*PS170 + PS172*PS74 - PS173*PS70 + PS175*PS62 + PS177*PS60 - PS179*PS72 - PS180*PS66*PS73 + PS182.
(** covariance.cpp l.484 *)
Definition N_6_6 : T := PS156*(pow2 (PS71)) - PS165*PS184 + PS166*PS185 + PS180*(pow2 (PS73)) - PS183*PS70 + PS186 + PS60*((P 0 0)*PS60 + (P 0 13)*PS166 - (P 0 14)*PS165 - (P 0 15)*PS70 + (P 0 3)*PS62 + (P 0 6) - PS151 + PS171) + PS62*((P 0 3)*PS60 + (P 3 13)*PS166 - (P 3 14)*PS165 - (P 3 15)*PS70 + (P 3 3)*PS62 + (P 3 6) + PS154 - PS178) + (pow2 (PS70))*dvzVar - PS72*((P 1 2)*PS74 + (P 2 13)*PS166 - (P 2 14)*PS165 - (P 2 15)*PS70 - (P 2 2)*PS72 + (P 2 6) + PS147 + PS174) + PS74*((P 1 1)*PS74 + (P 1 13)*PS166 - (P 1 14)*PS165 - (P 1 15)*PS70 - (P 1 2)*PS72 + (P 1 6) + PS143 + PS176).
(** covariance.cpp l.485 *)
Definition N_0_7 : T := (P 0 7) - (P 1 7)*PS11 - (P 2 7)*PS12 - (P 3 7)*PS13 + (P 7 10)*PS6 + (P 7 11)*PS7 + (P 7 12)*PS9 + PS63*dt.
(** covariance.cpp l.486 *)
Definition N_1_7 : T := (P 0 7)*PS11 + (P 1 7) + (P 2 7)*PS13 - (P 3 7)*PS12 - (P 7 10)*PS34 + (P 7 11)*PS9 - (P 7 12)*PS7 + PS98*dt.
(** covariance.cpp l.487 *)
Definition N_2_7 : T := (P 0 7)*PS12 - (P 1 7)*PS13 + (P 2 7) + (P 3 7)*PS11 - (P 7 10)*PS9 - (P 7 11)*PS34 + (P 7 12)*PS6 + PS119*dt.
(** covariance.cpp l.488 *)
Definition N_3_7 : T := (P 0 7)*PS13 + (P 1 7)*PS12 - (P 2 7)*PS11 + (P 3 7) + (P 7 10)*PS7 - (P 7 11)*PS6 - (P 7 12)*PS34 + PS135*dt.
(** covariance.cpp l.489 *)
Definition N_4_7 : T := (P 0 7)*PS72 + (P 1 7)*PS62 + (P 2 7)*PS60 - (P 3 7)*PS74 + (P 4 7) - (P 7 13)*PS44 + (P 7 14)*PS140 - (P 7 15)*PS139 + PS158*dt.
(** covariance.cpp l.490 *)
Definition N_5_7 : T := (P 0 7)*PS74 - (P 1 7)*PS60 + (P 2 7)*PS62 + (P 3 7)*PS72 + (P 5 7) - (P 7 13)*PS162 - (P 7 14)*PS65 + (P 7 15)*PS160 + dt*((P 0 4)*PS74 - (P 1 4)*PS60 + (P 2 4)*PS62 + (P 3 4)*PS72 - (P 4 13)*PS162 - (P 4 14)*PS65 + (P 4 15)*PS160 + (P 4 5)).
(** covariance.cpp l.491 *)
Definition N_6_7 : T := (P 0 7)*PS60 + (P 1 7)*PS74 - (P 2 7)*PS72 + (P 3 7)*PS62 + (P 6 7) + (P 7 13)*PS166 - (P 7 14)*PS165 - (P 7 15)*PS70 + dt*((P 0 4)*PS60 + (P 1 4)*PS74 - (P 2 4)*PS72 + (P 3 4)*PS62 + (P 4 13)*PS166 - (P 4 14)*PS165 - (P 4 15)*PS70 + (P 4 6)).
(** covariance.cpp l.492 *)
Definition N_7_7 : T := (P 4 7)*dt + (P 7 7) + dt*((P 4 4)*dt + (P 4 7)).
(** covariance.cpp l.493 *)
Definition N_0_8 : T := (P 0 8) - (P 1 8)*PS11 - (P 2 8)*PS12 - (P 3 8)*PS13 + (P 8 10)*PS6 + (P 8 11)*PS7 + (P 8 12)*PS9 + PS69*dt.
(** covariance.cpp l.494 *)
Definition N_1_8 : T := (P 0 8)*PS11 + (P 1 8) + (P 2 8)*PS13 - (P 3 8)*PS12 - (P 8 10)*PS34 + (P 8 11)*PS9 - (P 8 12)*PS7 + PS100*dt.
(** covariance.cpp l.495 *)
Definition N_2_8 : T := (P 0 8)*PS12 - (P 1 8)*PS13 + (P 2 8) + (P 3 8)*PS11 - (P 8 10)*PS9 - (P 8 11)*PS34 + (P 8 12)*PS6 + PS121*dt.
(** covariance.cpp l.496 *)
Definition N_3_8 : T := (P 0 8)*PS13 + (P 1 8)*PS12 - (P 2 8)*PS11 + (P 3 8) + (P 8 10)*PS7 - (P 8 11)*PS6 - (P 8 12)*PS34 + PS137*dt.
(** covariance.cpp l.497 *)
Definition N_4_8 : T := (P 0 8)*PS72 + (P 1 8)*PS62 + (P 2 8)*PS60 - (P 3 8)*PS74 + (P 4 8) - (P 8 13)*PS44 + (P 8 14)*PS140 - (P 8 15)*PS139 + PS164*dt.
(** covariance.cpp l.498 *)
Definition N_5_8 : T := (P 0 8)*PS74 - (P 1 8)*PS60 + (P 2 8)*PS62 + (P 3 8)*PS72 + (P 5 8) - (P 8 13)*PS162 - (P 8 14)*PS65 + (P 8 15)*PS160 + PS181*dt.
(** covariance.cpp l.499 *)
Definition N_6_8 : T := (P 0 8)*PS60 + (P 1 8)*PS74 - (P 2 8)*PS72 + (P 3 8)*PS62 + (P 6 8) + (P 8 13)*PS166 - (P 8 14)*PS165 - (P 8 15)*PS70 + dt*((P 0 5)*PS60 + (P 1 5)*PS74 - (P 2 5)*PS72 + (P 3 5)*PS62 + (P 5 13)*PS166 - (P 5 14)*PS165 - (P 5 15)*PS70 + (P 5 6)).
(** covariance.cpp l.500 *)
Definition N_7_8 : T := (P 4 8)*dt + (P 7 8) + dt*((P 4 5)*dt + (P 5 7)).
(** covariance.cpp l.501 *)
Definition N_8_8 : T := (P 5 8)*dt + (P 8 8) + dt*((P 5 5)*dt + (P 5 8)).
(** covariance.cpp l.502 *)
Definition N_0_9 : T := (P 0 9) - (P 1 9)*PS11 - (P 2 9)*PS12 - (P 3 9)*PS13 + (P 9 10)*PS6 + (P 9 11)*PS7 + (P 9 12)*PS9 + PS75*dt.
(** covariance.cpp l.503 *)
Definition N_1_9 : T := (P 0 9)*PS11 + (P 1 9) + (P 2 9)*PS13 - (P 3 9)*PS12 - (P 9 10)*PS34 + (P 9 11)*PS9 - (P 9 12)*PS7 + PS101*dt.
(** covariance.cpp l.504 *)
Definition N_2_9 : T := (P 0 9)*PS12 - (P 1 9)*PS13 + (P 2 9) + (P 3 9)*PS11 - (P 9 10)*PS9 - (P 9 11)*PS34 + (P 9 12)*PS6 + PS122*dt.
(** covariance.cpp l.505 *)
Definition N_3_9 : T := (P 0 9)*PS13 + (P 1 9)*PS12 - (P 2 9)*PS11 + (P 3 9) + (P 9 10)*PS7 - (P 9 11)*PS6 - (P 9 12)*PS34 + PS138*dt.
(** covariance.cpp l.506 *)
Definition N_4_9 : T := (P 0 9)*PS72 + (P 1 9)*PS62 + (P 2 9)*PS60 - (P 3 9)*PS74 + (P 4 9) - (P 9 13)*PS44 + (P 9 14)*PS140 - (P 9 15)*PS139 + PS168*dt.
(** covariance.cpp l.507 *)
Definition N_5_9 : T := (P 0 9)*PS74 - (P 1 9)*PS60 + (P 2 9)*PS62 + (P 3 9)*PS72 + (P 5 9) - (P 9 13)*PS162 - (P 9 14)*PS65 + (P 9 15)*PS160 + PS182*dt.
(** covariance.cpp l.508 *)
Definition N_6_9 : T := (P 0 9)*PS60 + (P 1 9)*PS74 - (P 2 9)*PS72 + (P 3 9)*PS62 + (P 6 9) + (P 9 13)*PS166 - (P 9 14)*PS165 - (P 9 15)*PS70 + PS186*dt.
(** covariance.cpp l.509 *)
Definition N_7_9 : T := (P 4 9)*dt + (P 7 9) + dt*((P 4 6)*dt + (P 6 7)).
(** covariance.cpp l.510 *)
Definition N_8_9 : T := (P 5 9)*dt + (P 8 9) + dt*((P 5 6)*dt + (P 6 8)).
(** covariance.cpp l.511 *)
Definition N_9_9 : T := (P 6 9)*dt + (P 9 9) + dt*((P 6 6)*dt + (P 6 9)).
(** covariance.cpp l.512 *)
Definition N_0_10 : T := PS14.
(** covariance.cpp l.513 *)
Definition N_1_10 : T := PS85.
(** covariance.cpp l.514 *)
Definition N_2_10 : T := PS109.
(** covariance.cpp l.515 *)
Definition N_3_10 : T := PS123.
(** covariance.cpp l.516 *)
Definition N_4_10 : T := (P 0 10)*PS72 + (P 1 10)*PS62 - (P 10 13)*PS44 + (P 10 14)*PS140 - (P 10 15)*PS139 + (P 2 10)*PS60 - (P 3 10)*PS74 + (P 4 10).
(** covariance.cpp l.517 *)
Definition N_5_10 : T := (P 0 10)*PS74 - (P 1 10)*PS60 - (P 10 13)*PS162 - (P 10 14)*PS65 + (P 10 15)*PS160 + (P 2 10)*PS62 + (P 3 10)*PS72 + (P 5 10).
(** covariance.cpp l.518 *)
Definition N_6_10 : T := (P 0 10)*PS60 + (P 1 10)*PS74 + (P 10 13)*PS166 - (P 10 14)*PS165 - (P 10 15)*PS70 - (P 2 10)*PS72 + (P 3 10)*PS62 + (P 6 10).
(** covariance.cpp l.519 *)
Definition N_7_10 : T := (P 4 10)*dt + (P 7 10).
(** covariance.cpp l.520 *)
Definition N_8_10 : T := (P 5 10)*dt + (P 8 10).
(** covariance.cpp l.521 *)
Definition N_9_10 : T := (P 6 10)*dt + (P 9 10).
(** covariance.cpp l.522 *)
Definition N_10_10 : T := (P 10 10).
(** covariance.cpp l.523 *)
Definition N_0_11 : T := PS17.
(** covariance.cpp l.524 *)
Definition N_1_11 : T := PS77.
(** covariance.cpp l.525 *)
Definition N_2_11 : T := PS108.
(** covariance.cpp l.526 *)
Definition N_3_11 : T := PS127.
(** covariance.cpp l.527 *)
Definition N_4_11 : T := (P 0 11)*PS72 + (P 1 11)*PS62 - (P 11 13)*PS44 + (P 11 14)*PS140 - (P 11 15)*PS139 + (P 2 11)*PS60 - (P 3 11)*PS74 + (P 4 11).
(** covariance.cpp l.528 *)
Definition N_5_11 : T := (P 0 11)*PS74 - (P 1 11)*PS60 - (P 11 13)*PS162 - (P 11 14)*PS65 + (P 11 15)*PS160 + (P 2 11)*PS62 + (P 3 11)*PS72 + (P 5 11).
(** covariance.cpp l.529 *)
Definition N_6_11 : T := (P 0 11)*PS60 + (P 1 11)*PS74 + (P 11 13)*PS166 - (P 11 14)*PS165 - (P 11 15)*PS70 - (P 2 11)*PS72 + (P 3 11)*PS62 + (P 6 11).
(** covariance.cpp l.530 *)
Definition N_7_11 : T := (P 4 11)*dt + (P 7 11).
(** covariance.cpp l.531 *)
Definition N_8_11 : T := (P 5 11)*dt + (P 8 11).
(** covariance.cpp l.532 *)
Definition N_9_11 : T := (P 6 11)*dt + (P 9 11).
(** covariance.cpp l.533 *)
Definition N_10_11 : T := (P 10 11).
(** covariance.cpp l.534 *)
Definition N_11_11 : T := (P 11 11).
(** covariance.cpp l.535 *)
Definition N_0_12 : T := PS20.
(** covariance.cpp l.536 *)
Definition N_1_12 : T := PS87.
(** covariance.cpp l.537 *)
Definition N_2_12 : T := PS103.
(** covariance.cpp l.538 *)
Definition N_3_12 : T := PS126.
(** covariance.cpp l.539 *)
Definition N_4_12 : T := (P 0 12)*PS72 + (P 1 12)*PS62 - (P 12 13)*PS44 + (P 12 14)*PS140 - (P 12 15)*PS139 + (P 2 12)*PS60 - (P 3 12)*PS74 + (P 4 12).
(** covariance.cpp l.540 *)
Definition N_5_12 : T := (P 0 12)*PS74 - (P 1 12)*PS60 - (P 12 13)*PS162 - (P 12 14)*PS65 + (P 12 15)*PS160 + (P 2 12)*PS62 + (P 3 12)*PS72 + (P 5 12).
(** covariance.cpp l.541 *)
Definition N_6_12 : T := (P 0 12)*PS60 + (P 1 12)*PS74 + (P 12 13)*PS166 - (P 12 14)*PS165 - (P 12 15)*PS70 - (P 2 12)*PS72 + (P 3 12)*PS62 + (P 6 12).
(** covariance.cpp l.542 *)
Definition N_7_12 : T := (P 4 12)*dt + (P 7 12).
(** covariance.cpp l.543 *)
Definition N_8_12 : T := (P 5 12)*dt + (P 8 12).
(** covariance.cpp l.544 *)
Definition N_9_12 : T := (P 6 12)*dt + (P 9 12).
(** covariance.cpp l.545 *)
Definition N_10_12 : T := (P 10 12).
(** covariance.cpp l.546 *)
Definition N_11_12 : T := (P 11 12).
(** covariance.cpp l.547 *)
Definition N_12_12 : T := (P 12 12).
(** covariance.cpp l.558 *)
Definition N_0_13 : T := PS45.
(** covariance.cpp l.559 *)
Definition N_1_13 : T := PS93.
(** covariance.cpp l.560 *)
Definition N_2_13 : T := PS114.
(** covariance.cpp l.561 *)
Definition N_3_13 : T := PS130.
(** covariance.cpp l.562 *)
Definition N_4_13 : T := PS141.
(** covariance.cpp l.563 *)
Definition N_5_13 : T := PS170.
(** covariance.cpp l.564 *)
Definition N_6_13 : T := PS185.
(** covariance.cpp l.565 *)
Definition N_7_13 : T := (P 4 13)*dt + (P 7 13).
(** covariance.cpp l.566 *)
Definition N_8_13 : T := (P 5 13)*dt + (P 8 13).
(** covariance.cpp l.567 *)
Definition N_9_13 : T := (P 6 13)*dt + (P 9 13).
(** covariance.cpp l.568 *)
Definition N_10_13 : T := (P 10 13).
(** covariance.cpp l.569 *)
Definition N_11_13 : T := (P 11 13).
(** covariance.cpp l.570 *)
Definition N_12_13 : T := (P 12 13).
(** covariance.cpp l.571 *)
Definition N_13_13 : T := (P 13 13).
(** covariance.cpp l.586 *)
Definition N_0_14 : T := PS55.
(** covariance.cpp l.587 *)
Definition N_1_14 : T := PS96.
(** covariance.cpp l.588 *)
Definition N_2_14 : T := PS117.
(** covariance.cpp l.589 *)
Definition N_3_14 : T := PS133.
(** covariance.cpp l.590 *)
Definition N_4_14 : T := PS146.
(** covariance.cpp l.591 *)
Definition N_5_14 : T := PS169.
(** covariance.cpp l.592 *)
Definition N_6_14 : T := PS184.
(** covariance.cpp l.593 *)
Definition N_7_14 : T := (P 4 14)*dt + (P 7 14).
(** covariance.cpp l.594 *)
Definition N_8_14 : T := (P 5 14)*dt + (P 8 14).
(** covariance.cpp l.595 *)
Definition N_9_14 : T := (P 6 14)*dt + (P 9 14).
(** covariance.cpp l.596 *)
Definition N_10_14 : T := (P 10 14).
(** covariance.cpp l.597 *)
Definition N_11_14 : T := (P 11 14).
(** covariance.cpp l.598 *)
Definition N_12_14 : T := (P 12 14).
(** covariance.cpp l.599 *)
Definition N_13_14 : T := (P 13 14).
(** covariance.cpp l.600 *)
Definition N_14_14 : T := (P 14 14).
(** covariance.cpp l.615 *)
Definition N_0_15 : T := PS47.
(** covariance.cpp l.616 *)
Definition N_1_15 : T := PS94.
(** covariance.cpp l.617 *)
Definition N_2_15 : T := PS115.
(** covariance.cpp l.618 *)
Definition N_3_15 : T := PS131.
(** covariance.cpp l.619 *)
Definition N_4_15 : T := PS142.
(** covariance.cpp l.620 *)
Definition N_5_15 : T := PS173.
(** covariance.cpp l.621 *)
Definition N_6_15 : T := PS183.
(** covariance.cpp l.622 *)
Definition N_7_15 : T := (P 4 15)*dt + (P 7 15).
(** covariance.cpp l.623 *)
Definition N_8_15 : T := (P 5 15)*dt + (P 8 15).
(** covariance.cpp l.624 *)
Definition N_9_15 : T := (P 6 15)*dt + (P 9 15).
(** covariance.cpp l.625 *)
Definition N_10_15 : T := (P 10 15).
(** covariance.cpp l.626 *)
Definition N_11_15 : T := (P 11 15).
(** covariance.cpp l.627 *)
Definition N_12_15 : T := (P 12 15).
(** covariance.cpp l.628 *)
Definition N_13_15 : T := (P 13 15).
(** covariance.cpp l.629 *)
Definition N_14_15 : T := (P 14 15).
(** covariance.cpp l.630 *)
Definition N_15_15 : T := (P 15 15).
(** covariance.cpp l.646 *)
Definition N_0_16 : T := (P 0 16) - (P 1 16)*PS11 + (P 10 16)*PS6 + (P 11 16)*PS7 + (P 12 16)*PS9 - (P 2 16)*PS12 - (P 3 16)*PS13.
(** covariance.cpp l.647 *)
Definition N_1_16 : T := (P 0 16)*PS11 + (P 1 16) - (P 10 16)*PS34 + (P 11 16)*PS9 - (P 12 16)*PS7 + (P 2 16)*PS13 - (P 3 16)*PS12.
(** covariance.cpp l.648 *)
Definition N_2_16 : T := (P 0 16)*PS12 - (P 1 16)*PS13 - (P 10 16)*PS9 - (P 11 16)*PS34 + (P 12 16)*PS6 + (P 2 16) + (P 3 16)*PS11.
(** covariance.cpp l.649 *)
Definition N_3_16 : T := (P 0 16)*PS13 + (P 1 16)*PS12 + (P 10 16)*PS7 - (P 11 16)*PS6 - (P 12 16)*PS34 - (P 2 16)*PS11 + (P 3 16).
(** covariance.cpp l.650 *)
Definition N_4_16 : T := (P 0 16)*PS72 + (P 1 16)*PS62 - (P 13 16)*PS44 + (P 14 16)*PS140 - (P 15 16)*PS139 + (P 2 16)*PS60 - (P 3 16)*PS74 + (P 4 16).
(** covariance.cpp l.651 *)
Definition N_5_16 : T := (P 0 16)*PS74 - (P 1 16)*PS60 - (P 13 16)*PS162 - (P 14 16)*PS65 + (P 15 16)*PS160 + (P 2 16)*PS62 + (P 3 16)*PS72 + (P 5 16).
(** covariance.cpp l.652 *)
Definition N_6_16 : T := (P 0 16)*PS60 + (P 1 16)*PS74 + (P 13 16)*PS166 - (P 14 16)*PS165 - (P 15 16)*PS70 - (P 2 16)*PS72 + (P 3 16)*PS62 + (P 6 16).
(** covariance.cpp l.653 *)
Definition N_7_16 : T := (P 4 16)*dt + (P 7 16).
(** covariance.cpp l.654 *)
Definition N_8_16 : T := (P 5 16)*dt + (P 8 16).
(** covariance.cpp l.655 *)
Definition N_9_16 : T := (P 6 16)*dt + (P 9 16).
(** covariance.cpp l.656 *)
Definition N_10_16 : T := (P 10 16).
(** covariance.cpp l.657 *)
Definition N_11_16 : T := (P 11 16).
(** covariance.cpp l.658 *)
Definition N_12_16 : T := (P 12 16).
(** covariance.cpp l.659 *)
Definition N_13_16 : T := (P 13 16).
(** covariance.cpp l.660 *)
Definition N_14_16 : T := (P 14 16).
(** covariance.cpp l.661 *)
Definition N_15_16 : T := (P 15 16).
(** covariance.cpp l.662 *)
Definition N_16_16 : T := (P 16 16).
(** covariance.cpp l.663 *)
Definition N_0_17 : T := (P 0 17) - (P 1 17)*PS11 + (P 10 17)*PS6 + (P 11 17)*PS7 + (P 12 17)*PS9 - (P 2 17)*PS12 - (P 3 17)*PS13.
(** covariance.cpp l.664 *)
Definition N_1_17 : T := (P 0 17)*PS11 + (P 1 17) - (P 10 17)*PS34 + (P 11 17)*PS9 - (P 12 17)*PS7 + (P 2 17)*PS13 - (P 3 17)*PS12.
(** covariance.cpp l.665 *)
Definition N_2_17 : T := (P 0 17)*PS12 - (P 1 17)*PS13 - (P 10 17)*PS9 - (P 11 17)*PS34 + (P 12 17)*PS6 + (P 2 17) + (P 3 17)*PS11.
(** covariance.cpp l.666 *)
Definition N_3_17 : T := (P 0 17)*PS13 + (P 1 17)*PS12 + (P 10 17)*PS7 - (P 11 17)*PS6 - (P 12 17)*PS34 - (P 2 17)*PS11 + (P 3 17).
(** covariance.cpp l.667 *)
Definition N_4_17 : T := (P 0 17)*PS72 + (P 1 17)*PS62 - (P 13 17)*PS44 + (P 14 17)*PS140 - (P 15 17)*PS139 + (P 2 17)*PS60 - (P 3 17)*PS74 + (P 4 17).
(** covariance.cpp l.668 *)
Definition N_5_17 : T := (P 0 17)*PS74 - (P 1 17)*PS60 - (P 13 17)*PS162 - (P 14 17)*PS65 + (P 15 17)*PS160 + (P 2 17)*PS62 + (P 3 17)*PS72 + (P 5 17).
(** covariance.cpp l.669 *)
Definition N_6_17 : T := (P 0 17)*PS60 + (P 1 17)*PS74 + (P 13 17)*PS166 - (P 14 17)*PS165 - (P 15 17)*PS70 - (P 2 17)*PS72 + (P 3 17)*PS62 + (P 6 17).
(** covariance.cpp l.670 *)
Definition N_7_17 : T := (P 4 17)*dt + (P 7 17).
(** covariance.cpp l.671 *)
Definition N_8_17 : T := (P 5 17)*dt + (P 8 17).
(** covariance.cpp l.672 *)
Definition N_9_17 : T := (P 6 17)*dt + (P 9 17).
(** covariance.cpp l.673 *)
Definition N_10_17 : T := (P 10 17).
(** covariance.cpp l.674 *)
Definition N_11_17 : T := (P 11 17).
(** covariance.cpp l.675 *)
Definition N_12_17 : T := (P 12 17).
(** covariance.cpp l.676 *)
Definition N_13_17 : T := (P 13 17).
(** covariance.cpp l.677 *)
Definition N_14_17 : T := (P 14 17).
(** covariance.cpp l.678 *)
Definition N_15_17 : T := (P 15 17).
(** covariance.cpp l.679 *)
Definition N_16_17 : T := (P 16 17).
(** covariance.cpp l.680 *)
Definition N_17_17 : T := (P 17 17).
(** covariance.cpp l.681 *)
Definition N_0_18 : T := (P 0 18) - (P 1 18)*PS11 + (P 10 18)*PS6 + (P 11 18)*PS7 + (P 12 18)*PS9 - (P 2 18)*PS12 - (P 3 18)*PS13.
(** covariance.cpp l.682 *)
Definition N_1_18 : T := (P 0 18)*PS11 + (P 1 18) - (P 10 18)*PS34 + (P 11 18)*PS9 - (P 12 18)*PS7 + (P 2 18)*PS13 - (P 3 18)*PS12.
(** covariance.cpp l.683 *)
Definition N_2_18 : T := (P 0 18)*PS12 - (P 1 18)*PS13 - (P 10 18)*PS9 - (P 11 18)*PS34 + (P 12 18)*PS6 + (P 2 18) + (P 3 18)*PS11.
(** covariance.cpp l.684 *)
Definition N_3_18 : T := (P 0 18)*PS13 + (P 1 18)*PS12 + (P 10 18)*PS7 - (P 11 18)*PS6 - (P 12 18)*PS34 - (P 2 18)*PS11 + (P 3 18).
(** covariance.cpp l.685 *)
Definition N_4_18 : T := (P 0 18)*PS72 + (P 1 18)*PS62 - (P 13 18)*PS44 + (P 14 18)*PS140 - (P 15 18)*PS139 + (P 2 18)*PS60 - (P 3 18)*PS74 + (P 4 18).
(** covariance.cpp l.686 *)
Definition N_5_18 : T := (P 0 18)*PS74 - (P 1 18)*PS60 - (P 13 18)*PS162 - (P 14 18)*PS65 + (P 15 18)*PS160 + (P 2 18)*PS62 + (P 3 18)*PS72 + (P 5 18).
(** covariance.cpp l.687 *)
Definition N_6_18 : T := (P 0 18)*PS60 + (P 1 18)*PS74 + (P 13 18)*PS166 - (P 14 18)*PS165 - (P 15 18)*PS70 - (P 2 18)*PS72 + (P 3 18)*PS62 + (P 6 18).
(** covariance.cpp l.688 *)
Definition N_7_18 : T := (P 4 18)*dt + (P 7 18).
(** covariance.cpp l.689 *)
Definition N_8_18 : T := (P 5 18)*dt + (P 8 18).
(** covariance.cpp l.690 *)
Definition N_9_18 : T := (P 6 18)*dt + (P 9 18).
(** covariance.cpp l.691 *)
Definition N_10_18 : T := (P 10 18).
(** covariance.cpp l.692 *)
Definition N_11_18 : T := (P 11 18).
(** covariance.cpp l.693 *)
Definition N_12_18 : T := (P 12 18).
(** covariance.cpp l.694 *)
Definition N_13_18 : T := (P 13 18).
(** covariance.cpp l.695 *)
Definition N_14_18 : T := (P 14 18).
(** covariance.cpp l.696 *)
Definition N_15_18 : T := (P 15 18).
(** covariance.cpp l.697 *)
Definition N_16_18 : T := (P 16 18).
(** covariance.cpp l.698 *)
Definition N_17_18 : T := (P 17 18).
(** covariance.cpp l.699 *)
Definition N_18_18 : T := (P 18 18).
(** covariance.cpp l.700 *)
Definition N_0_19 : T := (P 0 19) - (P 1 19)*PS11 + (P 10 19)*PS6 + (P 11 19)*PS7 + (P 12 19)*PS9 - (P 2 19)*PS12 - (P 3 19)*PS13.
(** covariance.cpp l.701 *)
Definition N_1_19 : T := (P 0 19)*PS11 + (P 1 19) - (P 10 19)*PS34 + (P 11 19)*PS9 - (P 12 19)*PS7 + (P 2 19)*PS13 - (P 3 19)*PS12.
(** covariance.cpp l.702 *)
Definition N_2_19 : T := (P 0 19)*PS12 - (P 1 19)*PS13 - (P 10 19)*PS9 - (P 11 19)*PS34 + (P 12 19)*PS6 + (P 2 19) + (P 3 19)*PS11.
(** covariance.cpp l.703 *)
Definition N_3_19 : T := (P 0 19)*PS13 + (P 1 19)*PS12 + (P 10 19)*PS7 - (P 11 19)*PS6 - (P 12 19)*PS34 - (P 2 19)*PS11 + (P 3 19).
(** covariance.cpp l.704 *)
Definition N_4_19 : T := (P 0 19)*PS72 + (P 1 19)*PS62 - (P 13 19)*PS44 + (P 14 19)*PS140 - (P 15 19)*PS139 + (P 2 19)*PS60 - (P 3 19)*PS74 + (P 4 19).
(** covariance.cpp l.705 *)
Definition N_5_19 : T := (P 0 19)*PS74 - (P 1 19)*PS60 - (P 13 19)*PS162 - (P 14 19)*PS65 + (P 15 19)*PS160 + (P 2 19)*PS62 + (P 3 19)*PS72 + (P 5 19).
(** covariance.cpp l.706 *)
Definition N_6_19 : T := (P 0 19)*PS60 + (P 1 19)*PS74 + (P 13 19)*PS166 - (P 14 19)*PS165 - (P 15 19)*PS70 - (P 2 19)*PS72 + (P 3 19)*PS62 + (P 6 19).
(** covariance.cpp l.707 *)
Definition N_7_19 : T := (P 4 19)*dt + (P 7 19).
(** covariance.cpp l.708 *)
Definition N_8_19 : T := (P 5 19)*dt + (P 8 19).
(** covariance.cpp l.709 *)
Definition N_9_19 : T := (P 6 19)*dt + (P 9 19).
(** covariance.cpp l.710 *)
Definition N_10_19 : T := (P 10 19).
(** covariance.cpp l.711 *)
Definition N_11_19 : T := (P 11 19).
(** covariance.cpp l.712 *)
Definition N_12_19 : T := (P 12 19).
(** covariance.cpp l.713 *)
Definition N_13_19 : T := (P 13 19).
(** covariance.cpp l.714 *)
Definition N_14_19 : T := (P 14 19).
(** covariance.cpp l.715 *)
Definition N_15_19 : T := (P 15 19).
(** covariance.cpp l.716 *)
Definition N_16_19 : T := (P 16 19).
(** covariance.cpp l.717 *)
Definition N_17_19 : T := (P 17 19).
(** covariance.cpp l.718 *)
Definition N_18_19 : T := (P 18 19).
(** covariance.cpp l.719 *)
Definition N_19_19 : T := (P 19 19).
(** covariance.cpp l.720 *)
Definition N_0_20 : T := (P 0 20) - (P 1 20)*PS11 + (P 10 20)*PS6 + (P 11 20)*PS7 + (P 12 20)*PS9 - (P 2 20)*PS12 - (P 3 20)*PS13.
(** covariance.cpp l.721 *)
Definition N_1_20 : T := (P 0 20)*PS11 + (P 1 20) - (P 10 20)*PS34 + (P 11 20)*PS9 - (P 12 20)*PS7 + (P 2 20)*PS13 - (P 3 20)*PS12.
(** covariance.cpp l.722 *)
Definition N_2_20 : T := (P 0 20)*PS12 - (P 1 20)*PS13 - (P 10 20)*PS9 - (P 11 20)*PS34 + (P 12 20)*PS6 + (P 2 20) + (P 3 20)*PS11.
(** covariance.cpp l.723 *)
Definition N_3_20 : T := (P 0 20)*PS13 + (P 1 20)*PS12 + (P 10 20)*PS7 - (P 11 20)*PS6 - (P 12 20)*PS34 - (P 2 20)*PS11 + (P 3 20).
(** covariance.cpp l.724 *)
Definition N_4_20 : T := (P 0 20)*PS72 + (P 1 20)*PS62 - (P 13 20)*PS44 + (P 14 20)*PS140 - (P 15 20)*PS139 + (P 2 20)*PS60 - (P 3 20)*PS74 + (P 4 20).
(** covariance.cpp l.725 *)
Definition N_5_20 : T := (P 0 20)*PS74 - (P 1 20)*PS60 - (P 13 20)*PS162 - (P 14 20)*PS65 + (P 15 20)*PS160 + (P 2 20)*PS62 + (P 3 20)*PS72 + (P 5 20).
(** covariance.cpp l.726 *)
Definition N_6_20 : T := (P 0 20)*PS60 + (P 1 20)*PS74 + (P 13 20)*PS166 - (P 14 20)*PS165 - (P 15 20)*PS70 - (P 2 20)*PS72 + (P 3 20)*PS62 + (P 6 20).
(** covariance.cpp l.727 *)
Definition N_7_20 : T := (P 4 20)*dt + (P 7 20).
(** covariance.cpp l.728 *)
Definition N_8_20 : T := (P 5 20)*dt + (P 8 20).
(** covariance.cpp l.729 *)
Definition N_9_20 : T := (P 6 20)*dt + (P 9 20).
(** covariance.cpp l.730 *)
Definition N_10_20 : T := (P 10 20).
(** covariance.cpp l.731 *)
Definition N_11_20 : T := (P 11 20).
(** covariance.cpp l.732 *)
Definition N_12_20 : T := (P 12 20).
(** covariance.cpp l.733 *)
Definition N_13_20 : T := (P 13 20).
(** covariance.cpp l.734 *)
Definition N_14_20 : T := (P 14 20).
(** covariance.cpp l.735 *)
Definition N_15_20 : T := (P 15 20).
(** covariance.cpp l.736 *)
Definition N_16_20 : T := (P 16 20).
(** covariance.cpp l.737 *)
Definition N_17_20 : T := (P 17 20).
(** covariance.cpp l.738 *)
Definition N_18_20 : T := (P 18 20).
(** covariance.cpp l.739 *)
Definition N_19_20 : T := (P 19 20).
(** covariance.cpp l.740 *)
Definition N_20_20 : T := (P 20 20).
(** covariance.cpp l.741 *)
Definition N_0_21 : T := (P 0 21) - (P 1 21)*PS11 + (P 10 21)*PS6 + (P 11 21)*PS7 + (P 12 21)*PS9 - (P 2 21)*PS12 - (P 3 21)*PS13.
(** covariance.cpp l.742 *)
Definition N_1_21 : T := (P 0 21)*PS11 + (P 1 21) - (P 10 21)*PS34 + (P 11 21)*PS9 - (P 12 21)*PS7 + (P 2 21)*PS13 - (P 3 21)*PS12.
(** covariance.cpp l.743 *)
Definition N_2_21 : T := (P 0 21)*PS12 - (P 1 21)*PS13 - (P 10 21)*PS9 - (P 11 21)*PS34 + (P 12 21)*PS6 + (P 2 21) + (P 3 21)*PS11.
(** covariance.cpp l.744 *)
Definition N_3_21 : T := (P 0 21)*PS13 + (P 1 21)*PS12 + (P 10 21)*PS7 - (P 11 21)*PS6 - (P 12 21)*PS34 - (P 2 21)*PS11 + (P 3 21).
(** covariance.cpp l.745 *)
Definition N_4_21 : T := (P 0 21)*PS72 + (P 1 21)*PS62 - (P 13 21)*PS44 + (P 14 21)*PS140 - (P 15 21)*PS139 + (P 2 21)*PS60 - (P 3 21)*PS74 + (P 4 21).
(** covariance.cpp l.746 *)
Definition N_5_21 : T := (P 0 21)*PS74 - (P 1 21)*PS60 - (P 13 21)*PS162 - (P 14 21)*PS65 + (P 15 21)*PS160 + (P 2 21)*PS62 + (P 3 21)*PS72 + (P 5 21).
(** covariance.cpp l.747 *)
Definition N_6_21 : T := (P 0 21)*PS60 + (P 1 21)*PS74 + (P 13 21)*PS166 - (P 14 21)*PS165 - (P 15 21)*PS70 - (P 2 21)*PS72 + (P 3 21)*PS62 + (P 6 21).
(** covariance.cpp l.748 *)
Definition N_7_21 : T := (P 4 21)*dt + (P 7 21).
(** covariance.cpp l.749 *)
Definition N_8_21 : T := (P 5 21)*dt + (P 8 21).
(** covariance.cpp l.750 *)
Definition N_9_21 : T := (P 6 21)*dt + (P 9 21).
(** covariance.cpp l.751 *)
Definition N_10_21 : T := (P 10 21).
(** covariance.cpp l.752 *)
Definition N_11_21 : T := (P 11 21).
(** covariance.cpp l.753 *)
Definition N_12_21 : T := (P 12 21).
(** covariance.cpp l.754 *)
Definition N_13_21 : T := (P 13 21).
(** covariance.cpp l.755 *)
Definition N_14_21 : T := (P 14 21).
(** covariance.cpp l.756 *)
Definition N_15_21 : T := (P 15 21).
(** covariance.cpp l.757 *)
Definition N_16_21 : T := (P 16 21).
(** covariance.cpp l.758 *)
Definition N_17_21 : T := (P 17 21).
(** covariance.cpp l.759 *)
Definition N_18_21 : T := (P 18 21).
(** covariance.cpp l.760 *)
Definition N_19_21 : T := (P 19 21).
(** covariance.cpp l.761 *)
Definition N_20_21 : T := (P 20 21).
(** covariance.cpp l.762 *)
Definition N_21_21 : T := (P 21 21).
(** covariance.cpp l.775 *)
Definition N_0_22 : T := (P 0 22) - (P 1 22)*PS11 + (P 10 22)*PS6 + (P 11 22)*PS7 + (P 12 22)*PS9 - (P 2 22)*PS12 - (P 3 22)*PS13.
(** covariance.cpp l.776 *)
Definition N_1_22 : T := (P 0 22)*PS11 + (P 1 22) - (P 10 22)*PS34 + (P 11 22)*PS9 - (P 12 22)*PS7 + (P 2 22)*PS13 - (P 3 22)*PS12.
(** covariance.cpp l.777 *)
Definition N_2_22 : T := (P 0 22)*PS12 - (P 1 22)*PS13 - (P 10 22)*PS9 - (P 11 22)*PS34 + (P 12 22)*PS6 + (P 2 22) + (P 3 22)*PS11.
(** covariance.cpp l.778 *)
Definition N_3_22 : T := (P 0 22)*PS13 + (P 1 22)*PS12 + (P 10 22)*PS7 - (P 11 22)*PS6 - (P 12 22)*PS34 - (P 2 22)*PS11 + (P 3 22).
(** covariance.cpp l.779 *)
Definition N_4_22 : T := (P 0 22)*PS72 + (P 1 22)*PS62 - (P 13 22)*PS44 + (P 14 22)*PS140 - (P 15 22)*PS139 + (P 2 22)*PS60 - (P 3 22)*PS74 + (P 4 22).
(** covariance.cpp l.780 *)
Definition N_5_22 : T := (P 0 22)*PS74 - (P 1 22)*PS60 - (P 13 22)*PS162 - (P 14 22)*PS65 + (P 15 22)*PS160 + (P 2 22)*PS62 + (P 3 22)*PS72 + (P 5 22).
(** covariance.cpp l.781 *)
Definition N_6_22 : T := (P 0 22)*PS60 + (P 1 22)*PS74 + (P 13 22)*PS166 - (P 14 22)*PS165 - (P 15 22)*PS70 - (P 2 22)*PS72 + (P 3 22)*PS62 + (P 6 22).
(** covariance.cpp l.782 *)
Definition N_7_22 : T := (P 4 22)*dt + (P 7 22).
(** covariance.cpp l.783 *)
Definition N_8_22 : T := (P 5 22)*dt + (P 8 22).
(** covariance.cpp l.784 *)
Definition N_9_22 : T := (P 6 22)*dt + (P 9 22).
(** covariance.cpp l.785 *)
Definition N_10_22 : T := (P 10 22).
(** covariance.cpp l.786 *)
Definition N_11_22 : T := (P 11 22).
(** covariance.cpp l.787 *)
Definition N_12_22 : T := (P 12 22).
(** covariance.cpp l.788 *)
Definition N_13_22 : T := (P 13 22).
(** covariance.cpp l.789 *)
Definition N_14_22 : T := (P 14 22).
(** covariance.cpp l.790 *)
Definition N_15_22 : T := (P 15 22).
(** covariance.cpp l.791 *)
Definition N_16_22 : T := (P 16 22).
(** covariance.cpp l.792 *)
Definition N_17_22 : T := (P 17 22).
(** covariance.cpp l.793 *)
Definition N_18_22 : T := (P 18 22).
(** covariance.cpp l.794 *)
Definition N_19_22 : T := (P 19 22).
(** covariance.cpp l.795 *)
Definition N_20_22 : T := (P 20 22).
(** covariance.cpp l.796 *)
Definition N_21_22 : T := (P 21 22).
(** covariance.cpp l.797 *)
Definition N_22_22 : T := (P 22 22).
(** covariance.cpp l.798 *)
Definition N_0_23 : T := (P 0 23) - (P 1 23)*PS11 + (P 10 23)*PS6 + (P 11 23)*PS7 + (P 12 23)*PS9 - (P 2 23)*PS12 - (P 3 23)*PS13.
(** covariance.cpp l.799 *)
Definition N_1_23 : T := (P 0 23)*PS11 + (P 1 23) - (P 10 23)*PS34 + (P 11 23)*PS9 - (P 12 23)*PS7 + (P 2 23)*PS13 - (P 3 23)*PS12.
(** covariance.cpp l.800 *)
Definition N_2_23 : T := (P 0 23)*PS12 - (P 1 23)*PS13 - (P 10 23)*PS9 - (P 11 23)*PS34 + (P 12 23)*PS6 + (P 2 23) + (P 3 23)*PS11.
(** covariance.cpp l.801 *)
Definition N_3_23 : T := (P 0 23)*PS13 + (P 1 23)*PS12 + (P 10 23)*PS7 - (P 11 23)*PS6 - (P 12 23)*PS34 - (P 2 23)*PS11 + (P 3 23).
(** covariance.cpp l.802 *)
Definition N_4_23 : T := (P 0 23)*PS72 + (P 1 23)*PS62 - (P 13 23)*PS44 + (P 14 23)*PS140 - (P 15 23)*PS139 + (P 2 23)*PS60 - (P 3 23)*PS74 + (P 4 23).
(** covariance.cpp l.803 *)
Definition N_5_23 : T := (P 0 23)*PS74 - (P 1 23)*PS60 - (P 13 23)*PS162 - (P 14 23)*PS65 + (P 15 23)*PS160 + (P 2 23)*PS62 + (P 3 23)*PS72 + (P 5 23).
(** covariance.cpp l.804 *)
Definition N_6_23 : T := (P 0 23)*PS60 + (P 1 23)*PS74 + (P 13 23)*PS166 - (P 14 23)*PS165 - (P 15 23)*PS70 - (P 2 23)*PS72 + (P 3 23)*PS62 + (P 6 23).
(** covariance.cpp l.805 *)
Definition N_7_23 : T := (P 4 23)*dt + (P 7 23).
(** covariance.cpp l.806 *)
Definition N_8_23 : T := (P 5 23)*dt + (P 8 23).
(** covariance.cpp l.807 *)
Definition N_9_23 : T := (P 6 23)*dt + (P 9 23).
(** covariance.cpp l.808 *)
Definition N_10_23 : T := (P 10 23).
(** covariance.cpp l.809 *)
Definition N_11_23 : T := (P 11 23).
(** covariance.cpp l.810 *)
Definition N_12_23 : T := (P 12 23).
(** covariance.cpp l.811 *)
Definition N_13_23 : T := (P 13 23).
(** covariance.cpp l.812 *)
Definition N_14_23 : T := (P 14 23).
(** covariance.cpp l.813 *)
Definition N_15_23 : T := (P 15 23).
(** covariance.cpp l.814 *)
Definition N_16_23 : T := (P 16 23).
(** covariance.cpp l.815 *)
Definition N_17_23 : T := (P 17 23).
(** covariance.cpp l.816 *)
Definition N_18_23 : T := (P 18 23).
(** covariance.cpp l.817 *)
Definition N_19_23 : T := (P 19 23).
(** covariance.cpp l.818 *)
Definition N_20_23 : T := (P 20 23).
(** covariance.cpp l.819 *)
Definition N_21_23 : T := (P 21 23).
(** covariance.cpp l.820 *)
Definition N_22_23 : T := (P 22 23).
(** covariance.cpp l.821 *)
Definition N_23_23 : T := (P 23 23).
(** column 0 of the upper triangle, rows 0..0 *)
Definition gcol0 : list T := [N_0_0].
(** column 1 of the upper triangle, rows 0..1 *)
Definition gcol1 : list T := [N_0_1; N_1_1].
(** column 2 of the upper triangle, rows 0..2 *)
Definition gcol2 : list T := [N_0_2; N_1_2; N_2_2].
(** column 3 of the upper triangle, rows 0..3 *)
Definition gcol3 : list T := [N_0_3; N_1_3; N_2_3; N_3_3].
(** column 4 of the upper triangle, rows 0..4 *)
Definition gcol4 : list T := [N_0_4; N_1_4; N_2_4; N_3_4; N_4_4].
(** column 5 of the upper triangle, rows 0..5 *)
Definition gcol5 : list T := [N_0_5; N_1_5; N_2_5; N_3_5; N_4_5; N_5_5].
(** column 6 of the upper triangle, rows 0..6 *)
Definition gcol6 : list T := [N_0_6; N_1_6; N_2_6; N_3_6; N_4_6; N_5_6; N_6_6].
(** column 7 of the upper triangle, rows 0..7 *)
Definition gcol7 : list T := [N_0_7; N_1_7; N_2_7; N_3_7; N_4_7; N_5_7; N_6_7; N_7_7].
(** column 8 of the upper triangle, rows 0..8 *)
Definition gcol8 : list T := [N_0_8; N_1_8; N_2_8; N_3_8; N_4_8; N_5_8; N_6_8; N_7_8; N_8_8].
(** column 9 of the upper triangle, rows 0..9 *)
Definition gcol9 : list T := [N_0_9; N_1_9; N_2_9; N_3_9; N_4_9; N_5_9; N_6_9; N_7_9; N_8_9; N_9_9].
(** column 10 of the upper triangle, rows 0..10 *)
Definition gcol10 : list T := [N_0_10; N_1_10; N_2_10; N_3_10; N_4_10; N_5_10; N_6_10; N_7_10; N_8_10; N_9_10; N_10_10].
(** column 11 of the upper triangle, rows 0..11 *)
Definition gcol11 : list T := [N_0_11; N_1_11; N_2_11; N_3_11; N_4_11; N_5_11; N_6_11; N_7_11; N_8_11; N_9_11; N_10_11; N_11_11].
(** column 12 of the upper triangle, rows 0..12 *)
Definition gcol12 : list T := [N_0_12; N_1_12; N_2_12; N_3_12; N_4_12; N_5_12; N_6_12; N_7_12; N_8_12; N_9_12; N_10_12; N_11_12; N_12_12].
(** column 13 of the upper triangle, rows 0..13 *)
Definition gcol13 : list T := [N_0_13; N_1_13; N_2_13; N_3_13; N_4_13; N_5_13; N_6_13; N_7_13; N_8_13; N_9_13; N_10_13; N_11_13; N_12_13; N_13_13].
(** column 14 of the upper triangle, rows 0..14 *)
Definition gcol14 : list T := [N_0_14; N_1_14; N_2_14; N_3_14; N_4_14; N_5_14; N_6_14; N_7_14; N_8_14; N_9_14; N_10_14; N_11_14; N_12_14; N_13_14; N_14_14].
(** column 15 of the upper triangle, rows 0..15 *)
Definition gcol15 : list T := [N_0_15; N_1_15; N_2_15; N_3_15; N_4_15; N_5_15; N_6_15; N_7_15; N_8_15; N_9_15; N_10_15; N_11_15; N_12_15; N_13_15; N_14_15; N_15_15].
(** column 16 of the upper triangle, rows 0..16 *)
Definition gcol16 : list T := [N_0_16; N_1_16; N_2_16; N_3_16; N_4_16; N_5_16; N_6_16; N_7_16; N_8_16; N_9_16; N_10_16; N_11_16; N_12_16; N_13_16; N_14_16; N_15_16; N_16_16].
(** column 17 of the upper triangle, rows 0..17 *)
Definition gcol17 : list T := [N_0_17; N_1_17; N_2_17; N_3_17; N_4_17; N_5_17; N_6_17; N_7_17; N_8_17; N_9_17; N_10_17; N_11_17; N_12_17; N_13_17; N_14_17; N_15_17; N_16_17; N_17_17].
(** column 18 of the upper triangle, rows 0..18 *)
Definition gcol18 : list T := [N_0_18; N_1_18; N_2_18; N_3_18; N_4_18; N_5_18; N_6_18; N_7_18; N_8_18; N_9_18; N_10_18; N_11_18; N_12_18; N_13_18; N_14_18; N_15_18; N_16_18; N_17_18; N_18_18].
(** column 19 of the upper triangle, rows 0..19 *)
Definition gcol19 : list T := [N_0_19; N_1_19; N_2_19; N_3_19; N_4_19; N_5_19; N_6_19; N_7_19; N_8_19; N_9_19; N_10_19; N_11_19; N_12_19; N_13_19; N_14_19; N_15_19; N_16_19; N_17_19; N_18_19; N_19_19].
(** column 20 of the upper triangle, rows 0..20 *)
Definition gcol20 : list T := [N_0_20; N_1_20; N_2_20; N_3_20; N_4_20; N_5_20; N_6_20; N_7_20; N_8_20; N_9_20; N_10_20; N_11_20; N_12_20; N_13_20; N_14_20; N_15_20; N_16_20; N_17_20; N_18_20; N_19_20; N_20_20].
(** column 21 of the upper triangle, rows 0..21 *)
Definition gcol21 : list T := [N_0_21; N_1_21; N_2_21; N_3_21; N_4_21; N_5_21; N_6_21; N_7_21; N_8_21; N_9_21; N_10_21; N_11_21; N_12_21; N_13_21; N_14_21; N_15_21; N_16_21; N_17_21; N_18_21; N_19_21; N_20_21; N_21_21].
(** column 22 of the upper triangle, rows 0..22 *)
Definition gcol22 : list T := [N_0_22; N_1_22; N_2_22; N_3_22; N_4_22; N_5_22; N_6_22; N_7_22; N_8_22; N_9_22; N_10_22; N_11_22; N_12_22; N_13_22; N_14_22; N_15_22; N_16_22; N_17_22; N_18_22; N_19_22; N_20_22; N_21_22; N_22_22].
(** column 23 of the upper triangle, rows 0..23 *)
Definition gcol23 : list T := [N_0_23; N_1_23; N_2_23; N_3_23; N_4_23; N_5_23; N_6_23; N_7_23; N_8_23; N_9_23; N_10_23; N_11_23; N_12_23; N_13_23; N_14_23; N_15_23; N_16_23; N_17_23; N_18_23; N_19_23; N_20_23; N_21_23; N_22_23; N_23_23].
(** all columns *)
Definition gcols : list (list T) := [gcol0; gcol1; gcol2; gcol3; gcol4; gcol5; gcol6; gcol7; gcol8; gcol9; gcol10; gcol11; gcol12; gcol13; gcol14; gcol15; gcol16; gcol17; gcol18; gcol19; gcol20; gcol21; gcol22; gcol23].
(** right-hand side assigned to nextP(i,j), i <= j *)
Definition gen (i j : nat) : T := nth i (nth j gcols []) szero.
End Gen.
