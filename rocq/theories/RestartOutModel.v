(** * Re-initialisation and the output predictor

    EKF/ekf.cpp l.47-99 (Ekf::init called again: reset), l.230 (alignOutputFilter at the end of
    initialiseFilter).  Parametric in the scalar, on the predictor state of OutputModel.v. *)
From Verif Require Import CBase Scalar RingBufferModel OutputModel.
Open Scope nat_scope.
Section RO.
Context {T : Type} {S : Scalar T}.
Open Scope scal_scope.
(** initialise_interface (estimator_interface.cpp l.519) allocates the output buffers again with the same length,
    which RingBuffer::allocate (RingBuffer.h l.60-63) leaves as they are.
    Ekf::reset, ekf.cpp l.54-99: of the state of OutputModel.v only the filter states, the newest output (velocity, position, attitude;
    its time is kept) and the angle correction are written *)
Definition resetOut (s : ost T) : ost T :=
  mkO (oq zero_out) (ov zero_out) (op zero_out) (fun _ => szero) (fun _ => szero)
    {| time_us := time_us (o_new s); payload := zero_out |} (w_new s) (o_buf s) (w_buf s) (o_rst s) (o_Rq s)
    (fun _ => szero) (o_vint s) (o_pint s) (o_track s) (o_yaw_delta s).
(** initialiseFilter when it completes, ekf.cpp l.138-233: attitude q from initialiseTilt and resetMagHeading (without updating the
    buffers; the published attitude change r is not used here), other states as they are, then alignOutputFilter *)
Definition startOut (q : Vec T) (r : rstat T) (s : ost T) : ost T := alignOutputFilter (setRst r (setEQ q s)).
Definition restartOut (q : Vec T) (r : rstat T) (s : ost T) : ost T := startOut q r (resetOut s).
End RO.
