{
 "claims": [
  {
   "property": "C01",
   "status": "proved",
   "theorems": [
    "C01_buffer_refines_bounded_queue",
    "C01_newest_oldest_capacity",
    "C01_holds_last_n"
   ],
   "note": ""
  },
  {
   "property": "C02",
   "status": "proved",
   "theorems": [
    "C02_pop_newest_due_and_discard_older",
    "C02_no_duplicate_no_reorder_causal"
   ],
   "note": ""
  },
  {
   "property": "C03",
   "status": "proved",
   "theorems": [
    "C03_spurious_sample_refuted",
    "C03_spurious_exactly_below_100ms"
   ],
   "note": ""
  },
  {
   "property": "C04",
   "status": "proved",
   "theorems": [
    "C04_unconsumed_data_not_flagged",
    "C04_consumed_sample_flagged_refuted"
   ],
   "note": ""
  },
  {
   "property": "C05",
   "status": "proved",
   "theorems": [
    "C05_sizing_defined_and_covering",
    "C05_selected_delays_covered",
    "C05_gps_height_delay_covered_refuted",
    "C05_division_by_zero_region",
    "C05_always_defined_refuted",
    "C05_division_by_zero_iff_one_slot",
    "C05_overflow_above_2540ms",
    "C05_no_sample_lost"
   ],
   "note": ""
  },
  {
   "property": "C06",
   "status": "proved",
   "theorems": [
    "C06_channel_holds_accepted_samples",
    "C06_accepted_in_order",
    "C06_accepted_rate_limited",
    "C06_rate_limit_all_histories_refuted",
    "C06_stamp_accuracy",
    "C06_stamp_exact_first_16s",
    "C06_stamp_exact_refuted",
    "C06_gps_channel_holds_3d_fixes",
    "C06_gps_not_wanted_not_buffered",
    "C06_nothing_before_initialisation"
   ],
   "note": ""
  },
  {
   "property": "C07",
   "status": "proved",
   "theorems": [
    "C07_average_is_mean",
    "C07_average_256_samples_refuted"
   ],
   "note": ""
  },
  {
   "property": "C08",
   "status": "proved",
   "theorems": [
    "C08_emitted_samples_cover_the_stream",
    "C08_adaptation_bounded",
    "C08_nan_period_refuted"
   ],
   "note": ""
  },
  {
   "property": "C09",
   "status": "proved",
   "theorems": [
    "C09_state_in_hull",
    "C09_constant_is_fixed_point",
    "C09_exponential_response",
    "C09_binary32_bounded",
    "C09_binary32_fixed_point_refuted",
    "C09_set_parameters_in_unit_interval",
    "C09_set_parameters_keeps_alpha"
   ],
   "note": ""
  },
  {
   "property": "C10",
   "status": "proved",
   "theorems": [
    "C10_data_healthy_only_if",
    "C10_healthy_only_if",
    "C10_regular_iff",
    "C10_filtered_interval_bounded",
    "C10_fresh_data_are_regular",
    "C10_ground_bypass_refuted",
    "C10_healthy_within_tilt_limit",
    "C10_height_corrected_for_offset",
    "C10_unhealthy_not_corrected",
    "C10_bypass_only_on_ground",
    "C10_bypass_uses_clearance"
   ],
   "note": ""
  },
  {
   "property": "C11",
   "status": "proved",
   "theorems": [
    "C11_rejected_until_moved",
    "C11_rejected_after_boot_until_moved",
    "C11_accepted_once_moved_refuted"
   ],
   "note": ""
  },
  {
   "property": "C12",
   "status": "proved",
   "theorems": [
    "C12_good_iff_no_enabled_failure_for_health_time",
    "C12_fail_flags_meaning",
    "C12_unknown_accuracy_fails_refuted",
    "C12_vertical_speed_check_survives_nan_refuted",
    "C12_drift_metrics",
    "C12_altitude_in_metres",
    "C12_time_step",
    "C12_time_step_bounded",
    "C12_no_false_speed_alarm",
    "C12_lasting_speed_is_detected"
   ],
   "note": ""
  },
  {
   "property": "C13",
   "status": "proved",
   "theorems": [
    "C13_origin_fixed_once_initialised",
    "C13_user_origin_position_kept",
    "C13_first_good_fix_sets_origin",
    "C13_gps_used_only_with_origin_and_3d_fix",
    "C13_user_origin_altitude_kept_refuted"
   ],
   "note": ""
  },
  {
   "property": "C14",
   "status": "proved",
   "theorems": [
    "C14_at_most_one_height_source"
   ],
   "note": ""
  },
  {
   "property": "C15",
   "status": "proved",
   "theorems": [
    "C15_gps_mode_never_restores_refuted",
    "C15_no_height_source_reachable_refuted",
    "C15_baro_mode_restores",
    "C15_range_mode_restores",
    "C15_ev_mode_restores"
   ],
   "note": ""
  },
  {
   "property": "C16",
   "status": "proved",
   "theorems": [
    "C16_mag_modes_exclusive",
    "C16_at_most_one_yaw_source",
    "C16_two_yaw_sources_refuted"
   ],
   "note": ""
  },
  {
   "property": "C17",
   "status": "proved",
   "theorems": [
    "C17_fault_stops_mag",
    "C17_fault_latched",
    "C17_disabled_never_starts",
    "C17_start_conditions",
    "C17_auto_3d_conditions",
    "C17_disabled_in_flight_refuted",
    "C17_mag_dec_without_3d_refuted",
    "C17_fault_resets_declination"
   ],
   "note": ""
  },
  {
   "property": "C18",
   "status": "proved",
   "theorems": [
    "C18_prediction_symmetric",
    "C18_unused_blocks_zero",
    "C18_update_symmetric",
    "C18_accel_block_not_symmetrised_refuted"
   ],
   "note": ""
  },
  {
   "property": "C19",
   "status": "proved",
   "theorems": [
    "C19_generated_expressions",
    "C19_predicted_covariances",
    "C19_predicted_variances",
    "C19_position_growth_stopped"
   ],
   "note": ""
  },
  {
   "property": "C20",
   "status": "proved",
   "theorems": [
    "C20_direct_update",
    "C20_sensor_update",
    "C20_unhealthy_update",
    "C20_inhibited_axis_refuted",
    "C20_optimal_gain",
    "C20_optimal_gain_sensor"
   ],
   "note": ""
  },
  {
   "property": "C21",
   "status": "proved",
   "theorems": [
    "C21_variances_limited",
    "C21_accel_variances",
    "C21_accel_below_ceiling",
    "C21_nan_refuted",
    "C21_accel_above_ceiling_refuted"
   ],
   "note": ""
  },
  {
   "property": "C22",
   "status": "proved",
   "theorems": [
    "C22_rejected_changes_nothing",
    "C22_accepted_stamps_time",
    "C22_horizontal_gate",
    "C22_vertical_gate",
    "C22_bad_vertical_accel_limited",
    "C22_nan_rejected",
    "C22_nan_one_axis_refuted",
    "C22_nan_gate_disabled_refuted"
   ],
   "note": ""
  },
  {
   "property": "C23",
   "status": "proved",
   "theorems": [
    "C23_horizontal_velocity_reset",
    "C23_vertical_velocity_reset",
    "C23_horizontal_position_reset",
    "C23_vertical_position_reset",
    "C23_attitude_reset_outputs",
    "C23_attitude_change_is_exact",
    "C23_vertical_integral_shift_refuted",
    "C23_vertical_integral_error_is_transient",
    "C23_vertical_integral_error_is_carried",
    "C23_two_resets_publish_only_last_refuted",
    "C23_velocity_reset"
   ],
   "note": ""
  },
  {
   "property": "C24",
   "status": "proved",
   "theorems": [
    "C24_outputs_keep_inertial_differences",
    "C24_ledger_is_inertial",
    "C24_vertical_channel_is_trapezoidal",
    "C24_alignment",
    "C24_initial_alignment"
   ],
   "note": ""
  },
  {
   "property": "C25",
   "status": "proved",
   "theorems": [
    "C25_recent_timed_out_exclusive",
    "C25_trichotomy",
    "C25_monotone"
   ],
   "note": ""
  },
  {
   "property": "C26",
   "status": "proved",
   "theorems": [
    "C26_reported_value",
    "C26_reset_clears_low_flags",
    "C26_reset_clears_all_refuted",
    "C26_value_covers_all_refuted",
    "C26_solution_status",
    "C26_good_attitude_without_fault_refuted"
   ],
   "note": ""
  },
  {
   "property": "C27",
   "status": "proved",
   "theorems": [
    "C27_clip_counter_range",
    "C27_bad_acceleration_persists",
    "C27_bad_acceleration_persists_from_last",
    "C27_cleared_only_after_ten_seconds"
   ],
   "note": ""
  },
  {
   "property": "C28",
   "status": "proved",
   "theorems": [
    "C28_yaw_resets_limited",
    "C28_reset_needs_gps_and_convergence",
    "C28_total_not_limited_refuted"
   ],
   "note": ""
  },
  {
   "property": "C29",
   "status": "proved",
   "theorems": [
    "C29_dead_reckoning_flags",
    "C29_dead_reckoning_timeout"
   ],
   "note": ""
  },
  {
   "property": "C30",
   "status": "proved",
   "theorems": [
    "C30_never_negative",
    "C30_airspeed_measurement",
    "C30_sideslip_measurement",
    "C30_rate_limits",
    "C30_initialisation_speed",
    "C30_rejection_history",
    "C30_symmetric_history",
    "C30_airspeed_is_kalman_update",
    "C30_sideslip_is_kalman_update",
    "C30_prediction",
    "C30_prediction_noise_is_correlated",
    "C30_limiting_keeps_psd_refuted",
    "C30_valid_is_finite_refuted",
    "C30_settings",
    "C30_defaults"
   ],
   "note": ""
  },
  {
   "property": "C31",
   "status": "proved",
   "theorems": [
    "C31_initial_wind",
    "C31_matrix_has_rows_exchanged",
    "C31_initial_covariance",
    "C31_first_order_covariance_refuted",
    "C31_sideslip_initialisation"
   ],
   "note": ""
  },
  {
   "property": "C32",
   "status": "proved",
   "theorems": [
    "C32_reproject_inverts_project",
    "C32_project_inverts_reproject",
    "C32_projection_is_equidistant",
    "C32_reference_is_origin",
    "C32_uninitialised_is_rejected",
    "C32_map_distances",
    "C32_map_distances_100km",
    "C32_roundtrip_same_point"
   ],
   "note": ""
  },
  {
   "property": "C33",
   "status": "proved",
   "theorems": [
    "C33_interpolates",
    "C33_exact_at_grid_points",
    "C33_between_corners",
    "C33_output_ranges",
    "C33_continuous",
    "C33_periodic",
    "C33_getter_units",
    "C33_binary32_safe",
    "C33_nan_is_undefined_refuted",
    "C33_binary32_accuracy",
    "C33_binary32_getters_accuracy",
    "C33_declination_wraps_wrong_refuted"
   ],
   "note": ""
  },
  {
   "property": "C34",
   "status": "proved",
   "theorems": [
    "C34_reported_estimate",
    "C34_agreeing_filters",
    "C34_weight_update",
    "C34_start",
    "C34_not_flying",
    "C34_velocity_used_once",
    "C34_binary32_weights",
    "C34_nan_likelihood_refuted"
   ],
   "note": ""
  },
  {
   "property": "C35",
   "status": "proved",
   "theorems": [
    "C35_range_fusion",
    "C35_flow_noise",
    "C35_flow_noise_interpolated",
    "C35_flow_sensor_velocity",
    "C35_flow_fusion",
    "C35_flow_two_axes_sequential_refuted",
    "C35_flow_two_axes_overshoot",
    "C35_clearance",
    "C35_on_ground",
    "C35_variance_growth",
    "C35_initialise_in_air",
    "C35_clearance_after_initialisation_refuted",
    "C35_variance_never_negative",
    "C35_variance_bounded",
    "C35_error_never_grows",
    "C35_validity",
    "C35_valid_means_recent_information",
    "C35_binary32_variance_never_negative",
    "C35_binary32_clearance",
    "C35_binary32_clearance_exact_refuted"
   ],
   "note": ""
  },
  {
   "property": "C36",
   "status": "proved",
   "theorems": [
    "C36_tait_bryan_312",
    "C36_inverse_matrix",
    "C36_sequence_avoids_gimbal_lock",
    "C36_update_yaw",
    "C36_update_yaw_identity",
    "C36_yaw_overloads_agree",
    "C36_quaternion_of_matrix",
    "C36_yaw_reset"
   ],
   "note": ""
  },
  {
   "property": "C37",
   "status": "proved",
   "theorems": [
    "C37_airspeed",
    "C37_sideslip",
    "C37_drag_axis",
    "C37_drag",
    "C37_optical_flow",
    "C37_declination",
    "C37_gps_yaw",
    "C37_heading",
    "C37_heading_observable",
    "C37_magnetometer",
    "C37_magnetometer_posterior",
    "C37_airspeed_ill_conditioned",
    "C37_sideslip_ill_conditioned",
    "C37_drag_ill_conditioned",
    "C37_flow_ill_conditioned",
    "C37_magnetometer_ill_conditioned",
    "C37_yaw_ill_conditioned",
    "C37_sideslip_sideways_refuted"
   ],
   "note": ""
  },
  {
   "property": "C38",
   "status": "proved",
   "theorems": [
    "C38_limits",
    "C38_speed_limit",
    "C38_height_limits_nonnegative_refuted"
   ],
   "note": ""
  },
  {
   "property": "C39",
   "status": "proved",
   "theorems": [
    "C39_history",
    "C39_gate_and_bits",
    "C39_magnetometer_bits_refuted",
    "C39_magnetometer_clears_height_rejection",
    "C39_magnetometer_z_never_reported",
    "C39_flow_bits_refuted",
    "C39_flow_clears_terrain_rejection",
    "C39_nan_ratio",
    "C39_reported_ratios",
    "C39_reported_over_one_means_rejected",
    "C39_rejected_means_reported_over_one_refuted"
   ],
   "note": ""
  },
  {
   "property": "C40",
   "status": "proved",
   "theorems": [
    "C40_other_source_iff",
    "C40_only_source_iff",
    "C40_aiding_active_iff"
   ],
   "note": ""
  },
  {
   "property": "C41",
   "status": "proved",
   "theorems": [
    "C41_at_rest_iff_quiet_for_one_second"
   ],
   "note": ""
  },
  {
   "property": "C42",
   "status": "proved",
   "theorems": [
    "C42_gps_start_conditions",
    "C42_ev_yaw_start_conditions"
   ],
   "note": ""
  },
  {
   "property": "C43",
   "status": "proved",
   "theorems": [
    "C43_gps_lost",
    "C43_gps_lost_other_source",
    "C43_gps_quality_lost_other_source",
    "C43_ev_lost",
    "C43_flow_lost",
    "C43_airspeed_recent",
    "C43_gps_yaw_never_dropped_refuted"
   ],
   "note": ""
  },
  {
   "property": "C44",
   "status": "proved",
   "theorems": [
    "C44_synthetic_position_iff_no_aiding",
    "C44_synthetic_position_rate",
    "C44_synthetic_position_applied",
    "C44_synthetic_position_keeps_mode"
   ],
   "note": ""
  },
  {
   "property": "C45",
   "status": "proved",
   "theorems": [
    "C45_gps_disabled",
    "C45_flow_disabled",
    "C45_ev_disabled_refuted"
   ],
   "note": ""
  },
  {
   "property": "C46",
   "status": "proved",
   "theorems": [
    "C46_tilt_alignment_kept",
    "C46_yaw_alignment_kept",
    "C46_yaw_alignment_lost_indoor_refuted",
    "C46_vehicle_flags_only_by_interface",
    "C46_gps_yaw_fault_latched",
    "C46_in_air_times"
   ],
   "note": ""
  },
  {
   "property": "C47",
   "status": "proved",
   "theorems": [
    "C47_variance_frozen",
    "C47_decorrelated_from_earlier_states",
    "C47_still_correlated_refuted",
    "C47_inhibited_exactly_when",
    "C47_clipping_fault"
   ],
   "note": ""
  },
  {
   "property": "C48",
   "status": "proved",
   "theorems": [
    "C48_prediction_psd",
    "C48_history_psd",
    "C48_inhibited_prediction_refuted",
    "C48_position_hold_refuted"
   ],
   "note": ""
  },
  {
   "property": "C49",
   "status": "proved",
   "theorems": [
    "C49_attitude_covariance",
    "C49_attitude_covariance_frame",
    "C49_rotation_vector_variance",
    "C49_initial_covariance_psd"
   ],
   "note": ""
  },
  {
   "property": "C50",
   "status": "proved",
   "theorems": [
    "C50_yaw_variance_increase",
    "C50_yaw_variance_psd"
   ],
   "note": ""
  },
  {
   "property": "C51",
   "status": "proved",
   "theorems": [
    "C51_wind_covariance_reset",
    "C51_no_airspeed_refuted"
   ],
   "note": ""
  },
  {
   "property": "C52",
   "status": "proved",
   "theorems": [
    "C52_velocity_tracking",
    "C52_position_tracking",
    "C52_vertical_tracking"
   ],
   "note": ""
  },
  {
   "property": "C53",
   "status": "proved",
   "theorems": [
    "C53_distance_is_great_circle",
    "C53_waypoint_is_reprojection",
    "C53_waypoint_distance_and_bearing",
    "C53_line_waypoint_reaches_end",
    "C53_distance_3d",
    "C53_distance_local",
    "C53_triangle_inequality"
   ],
   "note": ""
  },
  {
   "property": "C54",
   "status": "proved",
   "theorems": [
    "C54_fast_vector_roundtrip",
    "C54_position_update_roundtrip",
    "C54_vector_direction_and_length"
   ],
   "note": ""
  },
  {
   "property": "C55",
   "status": "proved",
   "theorems": [
    "C55_line",
    "C55_arc_error",
    "C55_arc_in_sector",
    "C55_arc_out_of_sector_ignores_centre",
    "C55_arc_point_on_arc_refuted"
   ],
   "note": ""
  },
  {
   "property": "C56",
   "status": "proved",
   "theorems": [
    "C56_global_position_accuracy",
    "C56_local_position_accuracy",
    "C56_velocity_accuracy",
    "C56_binary32_never_below"
   ],
   "note": ""
  },
  {
   "property": "C57",
   "status": "proved",
   "theorems": [
    "C57_covariance_valid",
    "C57_prediction",
    "C57_update",
    "C57_never_rejected",
    "C57_speed_accuracy_ignored_refuted",
    "C57_run"
   ],
   "note": ""
  },
  {
   "property": "C58",
   "status": "proved",
   "theorems": [
    "C58_gain",
    "C58_gyro_bias_bounded",
    "C58_tilt_alignment",
    "C58_tilt_alignment_nose_up_refuted",
    "C58_attitude_bounded",
    "C58_orthogonality_lost_refuted",
    "C58_spin_is_prediction",
    "C58_prediction",
    "C58_tilt_correction",
    "C58_specific_force_filter",
    "C58_specific_force_converges"
   ],
   "note": ""
  },
  {
   "property": "C59",
   "status": "proved",
   "theorems": [
    "C59_attitude_stays_unit",
    "C59_attitude_step",
    "C59_attitude_correction"
   ],
   "note": ""
  },
  {
   "property": "C60",
   "status": "proved",
   "theorems": [
    "C60_field_limited",
    "C60_declination_wrap_refuted",
    "C60_after_fusion"
   ],
   "note": ""
  },
  {
   "property": "C61",
   "status": "proved",
   "theorems": [
    "C61_heading_sources"
   ],
   "note": ""
  },
  {
   "property": "C62",
   "status": "proved",
   "theorems": [
    "C62_height_fusion_needs_data",
    "C62_height_data_is_fused",
    "C62_stale_vision_height_refuted"
   ],
   "note": ""
  },
  {
   "property": "C63",
   "status": "proved",
   "theorems": [
    "C63_request_kept_until_reset",
    "C63_reset_to_gps_exact",
    "C63_reset_to_gps_after_timeout",
    "C63_reset_blocked_by_request_refuted"
   ],
   "note": ""
  },
  {
   "property": "C64",
   "status": "proved",
   "theorems": [
    "C64_mag_inhibition",
    "C64_in_air_heading_reset",
    "C64_synthetic_mag_z",
    "C64_no_magnetometer"
   ],
   "note": ""
  },
  {
   "property": "C65",
   "status": "proved",
   "theorems": [
    "C65_airspeed_fusion",
    "C65_sideslip_fusion",
    "C65_wind_estimation"
   ],
   "note": ""
  },
  {
   "property": "C66",
   "status": "proved",
   "theorems": [
    "C66_vision_position_mode",
    "C66_vision_velocity",
    "C66_auxiliary_velocity"
   ],
   "note": ""
  },
  {
   "property": "C67",
   "status": "proved",
   "theorems": [
    "C67_range_aid_suitable",
    "C67_range_aid_selects_range"
   ],
   "note": ""
  },
  {
   "property": "C68",
   "status": "proved",
   "theorems": [
    "C68_flow_aiding_exact",
    "C68_flow_fused_only_if",
    "C68_flow_fused_if"
   ],
   "note": ""
  },
  {
   "property": "C69",
   "status": "proved",
   "theorems": [
    "C69_quiet_vehicle_is_at_rest",
    "C69_rotation_is_movement",
    "C69_vibration_is_movement",
    "C69_metrics_filter_jitter",
    "C69_coning_metric",
    "C69_time_step",
    "C69_average_time_step"
   ],
   "note": ""
  },
  {
   "property": "C70",
   "status": "proved",
   "theorems": [
    "C70_attitude",
    "C70_velocity_position",
    "C70_limits",
    "C70_others_kept",
    "C70_exact_kinematics",
    "C70_constant_acceleration",
    "C70_at_rest",
    "C70_error_growth",
    "C70_update_period",
    "C70_filtered_acceleration",
    "C70_raw_rate",
    "C70_state_limits"
   ],
   "note": ""
  },
  {
   "property": "C71",
   "status": "proved",
   "theorems": [
    "C71_completes_exactly",
    "C71_initial_attitude",
    "C71_at_rest_tilt",
    "C71_baro_offset_in_hull",
    "C71_unusable_ignored",
    "C71_never_while_moving"
   ],
   "note": ""
  },
  {
   "property": "C72",
   "status": "proved",
   "theorems": [
    "C72_gps_reset_at_antenna",
    "C72_gps_reset_exact_iff",
    "C72_velocity_reset",
    "C72_flow_velocity",
    "C72_flow_near_ground",
    "C72_vision_velocity",
    "C72_position_reset",
    "C72_height_reset",
    "C72_covariance_stays_psd",
    "C72_flow_velocity_exact_refuted"
   ],
   "note": ""
  },
  {
   "property": "C73",
   "status": "proved",
   "theorems": [
    "C73_compass_heading",
    "C73_no_source",
    "C73_vision_heading",
    "C73_vision_heading_agrees_refuted",
    "C73_course_error",
    "C73_course_alignment_needs_speed",
    "C73_course_alignment",
    "C73_course_alignment_agrees_refuted",
    "C73_emergency_heading"
   ],
   "note": ""
  },
  {
   "property": "C74",
   "status": "proved",
   "theorems": [
    "C74_imu_bias_reset",
    "C74_mag_bias_reset",
    "C74_saved_mag_covariance",
    "C74_wind_reset"
   ],
   "note": ""
  },
  {
   "property": "C75",
   "status": "proved",
   "theorems": [
    "C75_gps_innovations",
    "C75_vision_observation_fused",
    "C75_vision_position",
    "C75_vision_increment",
    "C75_first_increment",
    "C75_vision_velocity",
    "C75_vision_alignment",
    "C75_baro_height",
    "C75_range_height",
    "C75_vision_height",
    "C75_aux_velocity",
    "C75_synthetic_position",
    "C75_height_used",
    "C75_gps_noise",
    "C75_height_noise",
    "C75_rotated_lever_arm_refuted"
   ],
   "note": ""
  },
  {
   "property": "C76",
   "status": "proved",
   "theorems": [
    "C76_gps_position_noise",
    "C76_height_noise",
    "C76_vision_noise",
    "C76_divisor_positive",
    "C76_nan_accuracy_is_best",
    "C76_nan_accuracy_rejected",
    "C76_velocity_noise_floor_refuted"
   ],
   "note": ""
  },
  {
   "property": "C77",
   "status": "proved",
   "theorems": [
    "C77_deadzone",
    "C77_deadzone_shape",
    "C77_f32_unchanged"
   ],
   "note": ""
  },
  {
   "property": "C78",
   "status": "proved",
   "theorems": [
    "C78_offset_step",
    "C78_frozen_as_reference",
    "C78_offset_bounded",
    "C78_offset_converges",
    "C78_nan_is_permanent",
    "C78_pressure_exact",
    "C78_pressure_bounded"
   ],
   "note": ""
  },
  {
   "property": "C79",
   "status": "proved",
   "theorems": [
    "C79_start_gps",
    "C79_start_gps_continuous",
    "C79_start_range",
    "C79_start_range_below_clearance",
    "C79_reset_consistent",
    "C79_fallback_to_gps_keeps_error",
    "C79_fallback_to_baro",
    "C79_fallback_to_baro_bounded",
    "C79_reset_range_below_clearance"
   ],
   "note": ""
  },
  {
   "property": "C80",
   "status": "proved",
   "theorems": [
    "C80_field_check",
    "C80_field_check_attitude",
    "C80_nan_field",
    "C80_yaw_observable_history",
    "C80_yaw_motion",
    "C80_bias_observable",
    "C80_slow_turn_never_observable",
    "C80_fast_turn_observable",
    "C80_control_uses_tests",
    "C80_heading_reset_above_anomalies",
    "C80_heading_reset_nan"
   ],
   "note": ""
  },
  {
   "property": "C81",
   "status": "proved",
   "theorems": [
    "C81_motion_excessive",
    "C81_tilt_excessive",
    "C81_rate_peak",
    "C81_acc_filter",
    "C81_rest_recovers",
    "C81_nan_acceleration",
    "C81_nan_rate",
    "C81_flow_sample",
    "C81_flow_period",
    "C81_slow_sensor",
    "C81_compensation",
    "C81_long_interval",
    "C81_flow_bias_bounded",
    "C81_flow_bias_converges",
    "C81_flow_rate_error",
    "C81_flow_bias_refuted",
    "C81_nan_flow",
    "C81_control_uses_tests"
   ],
   "note": ""
  },
  {
   "property": "C82",
   "status": "proved",
   "theorems": [
    "C82_range_aid",
    "C82_range_aid_nan",
    "C82_baro_consistent",
    "C82_baro_consistent_refuted",
    "C82_yaw_failure",
    "C82_yaw_failure_angle",
    "C82_yaw_failure_nan",
    "C82_antenna_steep",
    "C82_gps_heading_reset",
    "C82_gps_heading_reset_refuted",
    "C82_control_uses_tests"
   ],
   "note": ""
  },
  {
   "property": "C83",
   "status": "proved",
   "theorems": [
    "C83_outputs_refer_to_the_body_origin",
    "C83_body_origin_motion",
    "C83_acceleration_is_velocity_rate",
    "C83_predicted_attitude",
    "C83_vision_alignment",
    "C83_earth_rate",
    "C83_state_vector",
    "C83_published_biases_are_limited",
    "C83_published_covariance_blocks",
    "C83_bias_variance_is_too_small",
    "C83_published_bias_after_reset",
    "C83_velocity_ignores_gyro_bias_refuted"
   ],
   "note": ""
  },
  {
   "property": "C84",
   "status": "proved",
   "theorems": [
    "C84_sum_error",
    "C84_noise_bounds",
    "C84_gyro_bias_variance_accumulates",
    "C84_plain_addition_refuted"
   ],
   "note": ""
  },
  {
   "property": "C85",
   "status": "proved",
   "theorems": [
    "C85_samples_are_group_means",
    "C85_between_the_accelerations",
    "C85_constant_acceleration",
    "C85_time_is_the_mean",
    "C85_gap_is_bridged",
    "C85_stamp_after_gap_refuted",
    "C85_only_completing_samples_count",
    "C85_mean_specific_force_refuted",
    "C85_group_size"
   ],
   "note": ""
  },
  {
   "property": "C86",
   "status": "proved",
   "theorems": [
    "C86_memory_safe",
    "C86_read_after_failed_allocation_refuted",
    "C86_read_after_failed_construction",
    "C86_failure_is_latched",
    "C86_deliveries_safe",
    "C86_deliveries_never_fault",
    "C86_failure_latches"
   ],
   "note": ""
  },
  {
   "property": "C87",
   "status": "proved",
   "theorems": [
    "C87_status_cleared",
    "C87_first_height_source",
    "C87_latches_survive_refuted",
    "C87_restart_skips_startup_refuted",
    "C87_restart_attitude_refuted",
    "C87_outputs_restart",
    "C87_vertical_output_survives_refuted",
    "C87_stale_climb_refuted",
    "C87_stale_integral_refuted"
   ],
   "note": ""
  },
  {
   "property": "C88",
   "status": "proved",
   "theorems": [
    "C88_variance_bound",
    "C88_weighted_average",
    "C88_order_irrelevant",
    "C88_convergence",
    "C88_never_deaf"
   ],
   "note": ""
  },
  {
   "property": "C89",
   "status": "proved",
   "theorems": [
    "C89_move_keeps_position",
    "C89_moves_keep_position",
    "C89_move_without_aiding",
    "C89_move_not_valid",
    "C89_reported_origin",
    "C89_altitude_jump",
    "C89_buffered_gps_jump",
    "C89_buffered_gps_refuted",
    "C89_first_origin_at_rest",
    "C89_first_origin_aided",
    "C89_2d_fix_ignored",
    "C89_early_sample"
   ],
   "note": ""
  },
  {
   "property": "C90",
   "status": "proved",
   "theorems": [
    "C90_airspeed",
    "C90_flow",
    "C90_magnetometer",
    "C90_heading",
    "C90_drag_ignored",
    "C90_imu",
    "C90_never_recovers",
    "C90_published_attitude",
    "C90_published_stays",
    "C90_same_prediction",
    "C90_interval_lost",
    "C90_interval_attitude",
    "C90_interval_published",
    "C90_interval_bias_unlimited"
   ],
   "note": ""
  },
  {
   "property": "C91",
   "status": "proved",
   "theorems": [
    "C91_table_field",
    "C91_synthetic_z_length",
    "C91_synthetic_z_exact",
    "C91_synthetic_z_sign",
    "C91_flow_noise",
    "C91_true_airspeed"
   ],
   "note": ""
  },
  {
   "property": "C92",
   "status": "proved",
   "theorems": [
    "C92_textbook",
    "C92_least_squares",
    "C92_covariance",
    "C92_order",
    "C92_velocity_pair",
    "C92_position_pair",
    "C92_pair_optimal"
   ],
   "note": ""
  },
  {
   "property": "C93",
   "status": "proved",
   "theorems": [
    "C93_origin",
    "C93_flow_start",
    "C93_flow_start_refuted"
   ],
   "note": ""
  },
  {
   "property": "C94",
   "status": "proved",
   "theorems": [
    "C94_exact_measurements"
   ],
   "note": ""
  },
  {
   "property": "C95",
   "status": "proved",
   "theorems": [
    "C95_yaw_reset",
    "C95_many_resets",
    "C95_start",
    "C95_arcsine_domain",
    "C95_infinite_refused",
    "C95_nan_starts",
    "C95_normalised",
    "C95_same_start"
   ],
   "note": ""
  },
  {
   "property": "C96",
   "status": "proved",
   "theorems": [
    "C96_stays_healthy",
    "C96_limits",
    "C96_attitude",
    "C96_corrected_angle",
    "C96_from_start",
    "C96_cancelling_correction"
   ],
   "note": ""
  },
  {
   "property": "C97",
   "status": "proved",
   "theorems": [
    "C97_unit_attitude",
    "C97_correction",
    "C97_turn",
    "C97_angle",
    "C97_from_start"
   ],
   "note": "Binary32. Velocity and position outputs are not covered (their corrections integrate errors without limit). Assumes sine and cosine accurate to 3e-7 for finite arguments (such functions exist, C97_library_exists) and that the filter's attitude is a unit quaternion (C96)."
  },
  {
   "property": "C98",
   "status": "proved",
   "theorems": [
    "C98_gps_innovation_after_reset",
    "C98_position_overshoots",
    "C98_position_half",
    "C98_position_accepted_iff",
    "C98_position_rejected",
    "C98_velocity_innovation",
    "C98_velocity_overshoots",
    "C98_synthetic_after_reset"
   ],
   "note": "The resets enter as any function that sets the block (C72_position_reset and C72_velocity_reset show that the resets to vision do). The exact values need variances clear of the filter's floors and no accelerometer bias repair; the acceptance condition and the rejected case hold without that."
  },
  {
   "property": "C99",
   "status": "proved",
   "theorems": [
    "C99_reports_last_horizontal_measurement",
    "C99_reports_last_vertical_measurement",
    "C99_vertical_variance",
    "C99_position_hold_reported_as_gps",
    "C99_auxiliary_report_never_cleared",
    "C99_rejected_heading_keeps_old_innovation",
    "C99_terrain_flow_has_no_ratio",
    "C99_terrain_flow_innovation_reported",
    "C99_heading_accepted_consistent",
    "C99_heading_report_inconsistent",
    "C99_airspeed_report",
    "C99_sideslip_report",
    "C99_drag_axis_report",
    "C99_drag_report",
    "C99_mag_report",
    "C99_flow_report",
    "C99_heading_report",
    "C99_mag_bad_report"
   ],
   "note": "Generic in the scalar. Velocity, position, height, auxiliary velocity, heading and flow: over histories, values as arguments (InnovModel). Airspeed, sideslip, drag, magnetometer, heading and flow: also on the fusion functions themselves (FusionModel), for any wind reset that leaves the reports alone. Height above ground: C35. Reporting defects proved as such."
  }
 ]
}