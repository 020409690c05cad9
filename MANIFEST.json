{
 "claims": [
  {
   "property": "C01",
   "status": "proved",
   "theorems": [
    "C01_level_builder",
    "C01_zero_factor_rejected",
    "C01_nonzero_factor_accepted"
   ],
   "note": "in rocq/theories/Properties/DefenseProperties.v."
  },
  {
   "property": "C02",
   "status": "proved",
   "theorems": [
    "C02_add_level",
    "C02_no_two_levels_share_a_threshold"
   ],
   "note": "in rocq/theories/Properties/DefenseProperties.v."
  },
  {
   "property": "C03",
   "status": "proved",
   "theorems": [
    "C03_build",
    "C03_build_ok_iff"
   ],
   "note": "in rocq/theories/Properties/DefenseProperties.v."
  },
  {
   "property": "C04",
   "status": "proved",
   "theorems": [
    "C04_navigation"
   ],
   "note": "in rocq/theories/Properties/DefenseProperties.v."
  },
  {
   "property": "C05",
   "status": "proved",
   "theorems": [
    "C05_monotone"
   ],
   "note": "in rocq/theories/Properties/DefenseProperties.v."
  },
  {
   "property": "C06",
   "status": "proved",
   "theorems": [
    "C06_visitor_threshold_refuted"
   ],
   "note": "in rocq/theories/Properties/DefenseProperties.v. The code violates the expectation; the theorem proves the violation (witness and mechanism)."
  },
  {
   "property": "C07",
   "status": "proved",
   "theorems": [
    "C07_difficulty_strict",
    "C07_difficulty_one_and_zero",
    "C07_built_defense_has_difficulty"
   ],
   "note": "in rocq/theories/Properties/DefenseProperties.v."
  },
  {
   "property": "C08",
   "status": "proved",
   "theorems": [
    "C08_mcaptcha_builder"
   ],
   "note": "in rocq/theories/Properties/MCaptchaProperties.v."
  },
  {
   "property": "C09",
   "status": "proved",
   "theorems": [
    "C09_visitor_count_exact",
    "C09_visitor_count_overflow"
   ],
   "note": "in rocq/theories/Properties/MCaptchaProperties.v."
  },
  {
   "property": "C10",
   "status": "proved",
   "theorems": [
    "C10_difficulty_from_ladder",
    "C10_one_level_per_visitor",
    "C10_departures_keep_level"
   ],
   "note": "in rocq/theories/Properties/MCaptchaProperties.v."
  },
  {
   "property": "C11",
   "status": "proved",
   "theorems": [
    "C11_arrivals_only_band"
   ],
   "note": "in rocq/theories/Properties/MCaptchaProperties.v."
  },
  {
   "property": "C12",
   "status": "proved",
   "theorems": [
    "C12_difficulty_oscillates_refuted"
   ],
   "note": "in rocq/theories/Properties/MCaptchaProperties.v. The code violates the expectation; the theorem proves the violation (witness and mechanism)."
  },
  {
   "property": "C13",
   "status": "proved",
   "theorems": [
    "C13_surge_reaches_top",
    "C13_calm_reaches_bottom"
   ],
   "note": "in rocq/theories/Properties/MCaptchaProperties.v."
  },
  {
   "property": "C14",
   "status": "proved",
   "theorems": [
    "C14_not_lowest_after_quiet_refuted"
   ],
   "note": "in rocq/theories/Properties/MCaptchaProperties.v. The code violates the expectation; the theorem proves the violation (witness and mechanism)."
  },
  {
   "property": "C15",
   "status": "proved",
   "theorems": [
    "C15_create_payload"
   ],
   "note": "in rocq/theories/Properties/MCaptchaProperties.v."
  },
  {
   "property": "C16",
   "status": "proved",
   "theorems": [
    "C16_window"
   ],
   "note": "in rocq/theories/Properties/CounterProperties.v."
  },
  {
   "property": "C17",
   "status": "proved",
   "theorems": [
    "C17_add_reply",
    "C17_add_always_answered",
    "C17_reads_change_nothing"
   ],
   "note": "in rocq/theories/Properties/CounterProperties.v."
  },
  {
   "property": "C18",
   "status": "proved",
   "theorems": [
    "C18_restore_never_overcounts",
    "C18_restore_never_overcounts_timed",
    "C18_quiet_after_restore_is_zero",
    "C18_restore_takes_over",
    "C18_fresh_restore_exact"
   ],
   "note": "in rocq/theories/Properties/CounterProperties.v."
  },
  {
   "property": "C19",
   "status": "proved",
   "theorems": [
    "C19_restored_counter_forgets_early_refuted"
   ],
   "note": "in rocq/theories/Properties/CounterProperties.v. The code violates the expectation; the theorem proves the violation (witness and mechanism)."
  },
  {
   "property": "C20",
   "status": "proved",
   "theorems": [
    "C20_stop"
   ],
   "note": "in rocq/theories/Properties/CounterProperties.v."
  },
  {
   "property": "C21",
   "status": "proved",
   "theorems": [
    "C21_saved_visitors_never_expire_refuted",
    "C21_saved_site_count",
    "C21_never_collected"
   ],
   "note": "in rocq/theories/Properties/CounterProperties.v, rocq/theories/Properties/SiteProperties.v. The code violates the expectation; the theorem proves the violation (witness and mechanism)."
  },
  {
   "property": "C22",
   "status": "proved",
   "theorems": [
    "C22_registry",
    "C22_registration"
   ],
   "note": "in rocq/theories/Properties/MasterProperties.v."
  },
  {
   "property": "C23",
   "status": "proved",
   "theorems": [
    "C23_unregistered",
    "C23_registered"
   ],
   "note": "in rocq/theories/Properties/MasterProperties.v."
  },
  {
   "property": "C24",
   "status": "proved",
   "theorems": [
    "C24_undisturbed_cleanup",
    "C24_collects_only_inspected_idle"
   ],
   "note": "in rocq/theories/Properties/MasterProperties.v."
  },
  {
   "property": "C25",
   "status": "proved",
   "theorems": [
    "C25_visitor_dropped_refuted"
   ],
   "note": "in rocq/theories/Properties/MasterProperties.v. The code violates the expectation; the theorem proves the violation (witness and mechanism)."
  },
  {
   "property": "C26",
   "status": "proved",
   "theorems": [
    "C26_reregistration_removed_refuted"
   ],
   "note": "in rocq/theories/Properties/MasterProperties.v. The code violates the expectation; the theorem proves the violation (witness and mechanism)."
  },
  {
   "property": "C27",
   "status": "proved",
   "theorems": [
    "C27_rename_dead_refuted"
   ],
   "note": "in rocq/theories/Properties/MasterProperties.v. The code violates the expectation; the theorem proves the violation (witness and mechanism)."
  },
  {
   "property": "C28",
   "status": "proved",
   "theorems": [
    "C28_ahead_refuted",
    "C28_concurrent_removal_refuted"
   ],
   "note": "in rocq/theories/Properties/CleanupProperties.v, rocq/theories/Properties/MasterProperties.v. The code violates the expectation; the theorem proves the violation (witness and mechanism)."
  },
  {
   "property": "C29",
   "status": "proved",
   "theorems": [
    "C29_snapshot_exact"
   ],
   "note": "in rocq/theories/Properties/MasterProperties.v."
  },
  {
   "property": "C30",
   "status": "proved",
   "theorems": [
    "C30_restore_installs"
   ],
   "note": "in rocq/theories/Properties/MasterProperties.v."
  },
  {
   "property": "C31",
   "status": "proved",
   "theorems": [
    "C31_stays_unregistered",
    "C31_stops_counter",
    "C31_local"
   ],
   "note": "in rocq/theories/Properties/MasterProperties.v."
  },
  {
   "property": "C32",
   "status": "proved",
   "theorems": [
    "C32_challenge_exact",
    "C32_at_most_once"
   ],
   "note": "in rocq/theories/Properties/CacheProperties.v."
  },
  {
   "property": "C33",
   "status": "proved",
   "theorems": [
    "C33_token_exact",
    "C33_at_most_once"
   ],
   "note": "in rocq/theories/Properties/CacheProperties.v."
  },
  {
   "property": "C34",
   "status": "proved",
   "theorems": [
    "C34_challenge_not_after",
    "C34_token_not_after",
    "C34_challenge_not_before",
    "C34_token_not_before"
   ],
   "note": "in rocq/theories/Properties/CacheProperties.v."
  },
  {
   "property": "C35",
   "status": "proved",
   "theorems": [
    "C35_recache_refuted"
   ],
   "note": "in rocq/theories/Properties/CacheProperties.v. The code violates the expectation; the theorem proves the violation (witness and mechanism)."
  },
  {
   "property": "C36",
   "status": "proved",
   "theorems": [
    "C36_challenge_noninterference",
    "C36_token_noninterference",
    "C36_one_step"
   ],
   "note": "in rocq/theories/Properties/CacheProperties.v."
  },
  {
   "property": "C37",
   "status": "proved",
   "theorems": [
    "C37_wrong_key_refuted"
   ],
   "note": "in rocq/theories/Properties/CacheProperties.v. The code violates the expectation; the theorem proves the violation (witness and mechanism)."
  },
  {
   "property": "C38",
   "status": "proved",
   "theorems": [
    "C38_conservation",
    "C38_answers_in_order"
   ],
   "note": "in rocq/theories/Properties/QueueProperties.v."
  },
  {
   "property": "C39",
   "status": "proved",
   "theorems": [
    "C39_fifo_per_ip",
    "C39_fifo_per_runner"
   ],
   "note": "in rocq/theories/Properties/QueueProperties.v."
  },
  {
   "property": "C40",
   "status": "proved",
   "theorems": [
    "C40_manager_alive",
    "C40_manager_progress"
   ],
   "note": "in rocq/theories/Properties/QueueProperties.v."
  },
  {
   "property": "C41",
   "status": "proved",
   "theorems": [
    "C41_queue_full",
    "C41_bounded"
   ],
   "note": "in rocq/theories/Properties/QueueProperties.v."
  },
  {
   "property": "C42",
   "status": "proved",
   "theorems": [
    "C42_full_forever_refuted"
   ],
   "note": "in rocq/theories/Properties/QueueProperties.v. The code violates the expectation; the theorem proves the violation (witness and mechanism)."
  },
  {
   "property": "C43",
   "status": "proved",
   "theorems": [
    "C43_fair",
    "C43_attempts"
   ],
   "note": "in rocq/theories/Properties/QueueProperties.v."
  },
  {
   "property": "C44",
   "status": "proved",
   "theorems": [
    "C44_stranded_refuted"
   ],
   "note": "in rocq/theories/Properties/QueueProperties.v. The code violates the expectation; the theorem proves the violation (witness and mechanism)."
  },
  {
   "property": "C45",
   "status": "proved",
   "theorems": [
    "C45_enough_runners"
   ],
   "note": "in rocq/theories/Properties/QueueProperties.v."
  },
  {
   "property": "C46",
   "status": "proved",
   "theorems": [
    "C46_exited_finished",
    "C46_nothing_after_stop",
    "C46_shutdown_completes"
   ],
   "note": "in rocq/theories/Properties/QueueProperties.v."
  },
  {
   "property": "C47",
   "status": "proved",
   "theorems": [
    "C47_verdict",
    "C47_panic"
   ],
   "note": "in rocq/theories/Properties/SystemProperties.v."
  },
  {
   "property": "C48",
   "status": "proved",
   "theorems": [
    "C48_blocks_refuted",
    "C48_only_worthless"
   ],
   "note": "in rocq/theories/Properties/SystemLiveProperties.v. The code violates the expectation; the theorem proves the violation (witness and mechanism)."
  },
  {
   "property": "C49",
   "status": "proved",
   "theorems": [
    "C49_issued",
    "C49_nothing"
   ],
   "note": "in rocq/theories/Properties/SystemProperties.v."
  },
  {
   "property": "C50",
   "status": "proved",
   "theorems": [
    "C50_sound",
    "C50_in_time"
   ],
   "note": "in rocq/theories/Properties/SystemProperties.v."
  },
  {
   "property": "C51",
   "status": "proved",
   "theorems": [
    "C51_at_most_once",
    "C51_unique"
   ],
   "note": "in rocq/theories/Properties/SystemProperties.v."
  },
  {
   "property": "C52",
   "status": "proved",
   "theorems": [
    "C52_token_once",
    "C52_right_site"
   ],
   "note": "in rocq/theories/Properties/SystemProperties.v."
  },
  {
   "property": "C53",
   "status": "proved",
   "theorems": [
    "C53_mints_nothing",
    "C53_cancelled",
    "C53_consumed"
   ],
   "note": "in rocq/theories/Properties/SystemProperties.v."
  },
  {
   "property": "C54",
   "status": "proved",
   "theorems": [
    "C54_answer",
    "C54_served",
    "C54_idle",
    "C54_token"
   ],
   "note": "in rocq/theories/Properties/SystemLiveProperties.v."
  },
  {
   "property": "C55",
   "status": "proved",
   "theorems": [
    "C55_invalid_pow_refuted",
    "C55_answered_refuted"
   ],
   "note": "in rocq/theories/Properties/SystemProperties.v. The code violates the expectation; the theorem proves the violation (witness and mechanism)."
  },
  {
   "property": "C56",
   "status": "proved",
   "theorems": [
    "C56_stuck_refuted"
   ],
   "note": "in rocq/theories/Properties/SystemLiveProperties.v. The code violates the expectation; the theorem proves the violation (witness and mechanism)."
  },
  {
   "property": "C57",
   "status": "proved",
   "theorems": [
    "C57_build"
   ],
   "note": "in rocq/theories/Properties/SystemProperties.v."
  },
  {
   "property": "C58",
   "status": "proved",
   "theorems": [
    "C58_length_and_alphabet",
    "C58_terminates",
    "C58_every_string",
    "C58_even_odds",
    "C58_uniform"
   ],
   "note": "in rocq/theories/Properties/UtilsProperties.v."
  },
  {
   "property": "C59",
   "status": "proved",
   "theorems": [
    "C59_validates_iff_alive",
    "C59_own_site_only",
    "C59_once",
    "C59_expired"
   ],
   "note": "in rocq/theories/Properties/RedisProperties.v."
  },
  {
   "property": "C60",
   "status": "proved",
   "theorems": [
    "C60_ambiguous_refuted"
   ],
   "note": "in rocq/theories/Properties/RedisProperties.v. The code violates the expectation; the theorem proves the violation (witness and mechanism)."
  },
  {
   "property": "C61",
   "status": "proved",
   "theorems": [
    "C61_captcha_exists",
    "C61_get_token",
    "C61_errors",
    "C61_visit_replies",
    "C61_text_numbers",
    "C61_no_numbers",
    "C61_ping"
   ],
   "note": "in rocq/theories/Properties/RedisProperties.v."
  },
  {
   "property": "C62",
   "status": "proved",
   "theorems": [
    "C62_first_entry_only_refuted",
    "C62_first_entry_checked",
    "C62_all_commands"
   ],
   "note": "in rocq/theories/Properties/RedisProperties.v. The code violates the expectation; the theorem proves the violation (witness and mechanism)."
  },
  {
   "property": "C63",
   "status": "proved",
   "theorems": [
    "C63_redis_retrieve",
    "C63_memory_retrieve"
   ],
   "note": "in rocq/theories/Properties/RedisProperties.v."
  },
  {
   "property": "C64",
   "status": "proved",
   "theorems": [
    "C64_anywhere_refuted",
    "C64_next_job_refuted",
    "C64_lost_jobs_refuted",
    "C64_only_cause",
    "C64_drop_refuted",
    "C64_job_panic_refuted"
   ],
   "note": "in rocq/theories/Properties/QueuePanicProperties.v, rocq/theories/Properties/QueueProperties.v. The code violates the expectation; the theorem proves the violation (witness and mechanism)."
  },
  {
   "property": "C65",
   "status": "proved",
   "theorems": [
    "C65_dead_counter_kills_master_refuted",
    "C65_only_cause"
   ],
   "note": "in rocq/theories/Properties/MasterProperties.v. The code violates the expectation; the theorem proves the violation (witness and mechanism)."
  },
  {
   "property": "C66",
   "status": "proved",
   "theorems": [
    "C66_round_trip",
    "C66_dump",
    "C66_live_site",
    "C66_member_order"
   ],
   "note": "in rocq/theories/Properties/SerdeProperties.v."
  },
  {
   "property": "C67",
   "status": "proved",
   "theorems": [
    "C67_unchecked_refuted"
   ],
   "note": "in rocq/theories/Properties/SerdeProperties.v. The code violates the expectation; the theorem proves the violation (witness and mechanism)."
  },
  {
   "property": "C68",
   "status": "proved",
   "theorems": [
    "C68_registration_payload",
    "C68_challenge_payload"
   ],
   "note": "in rocq/theories/Properties/RedisProperties.v."
  },
  {
   "property": "C69",
   "status": "proved",
   "theorems": [
    "C69_gone_caller_refuted",
    "C69_patient_callers"
   ],
   "note": "in rocq/theories/Properties/RedisActorProperties.v. The code violates the expectation; the theorem proves the violation (witness and mechanism)."
  },
  {
   "property": "C70",
   "status": "proved",
   "theorems": [
    "C70_master_survives"
   ],
   "note": "in rocq/theories/Properties/RedisActorProperties.v."
  },
  {
   "property": "C71",
   "status": "proved",
   "theorems": [
    "C71_internal_data_refuted"
   ],
   "note": "in rocq/theories/Properties/RedisActorProperties.v. The code violates the expectation; the theorem proves the violation (witness and mechanism)."
  },
  {
   "property": "C72",
   "status": "proved",
   "theorems": [
    "C72_settled_once_in_order"
   ],
   "note": "in rocq/theories/Properties/RedisActorProperties.v."
  },
  {
   "property": "C73",
   "status": "proved",
   "theorems": [
    "C73_shared_connection_refuted",
    "C73_cluster",
    "C73_only_overlap"
   ],
   "note": "in rocq/theories/Properties/RedisActorProperties.v. The code violates the expectation; the theorem proves the violation (witness and mechanism)."
  },
  {
   "property": "C74",
   "status": "proved",
   "theorems": [
    "C74_duration_refuted"
   ],
   "note": "in rocq/theories/Properties/RedisActorProperties.v. The code violates the expectation; the theorem proves the violation (witness and mechanism)."
  },
  {
   "property": "C75",
   "status": "proved",
   "theorems": [
    "C75_answered_once",
    "C75_immediate"
   ],
   "note": "in rocq/theories/Properties/MasterProperties.v."
  },
  {
   "property": "C76",
   "status": "proved",
   "theorems": [
    "C76_all_answers"
   ],
   "note": "in rocq/theories/Properties/CacheProperties.v."
  },
  {
   "property": "C77",
   "status": "proved",
   "theorems": [
    "C77_thread_lost_refuted",
    "C77_three_visits_refuted"
   ],
   "note": "in rocq/theories/Properties/ExecutorProperties.v. The code violates the expectation; the theorem proves the violation (witness and mechanism)."
  },
  {
   "property": "C78",
   "status": "proved",
   "theorems": [
    "C78_garbage_stops_everything_refuted"
   ],
   "note": "in rocq/theories/Properties/ExecutorProperties.v. The code violates the expectation; the theorem proves the violation (witness and mechanism)."
  },
  {
   "property": "C79",
   "status": "proved",
   "theorems": [
    "C79_thread_released"
   ],
   "note": "in rocq/theories/Properties/ExecutorProperties.v."
  },
  {
   "property": "C80",
   "status": "proved",
   "theorems": [
    "C80_get_pow",
    "C80_verify_pow",
    "C80_validate",
    "C80_memory"
   ],
   "note": "in rocq/theories/Properties/SharedProperties.v."
  },
  {
   "property": "C81",
   "status": "proved",
   "theorems": [
    "C81_failure_hidden_refuted"
   ],
   "note": "in rocq/theories/Properties/SharedProperties.v. The code violates the expectation; the theorem proves the violation (witness and mechanism)."
  },
  {
   "property": "C82",
   "status": "proved",
   "theorems": [
    "C82_check_behind_pass",
    "C82_earned",
    "C82_good_everywhere",
    "C82_time"
   ],
   "note": "in rocq/theories/Properties/SharedProperties.v."
  },
  {
   "property": "C83",
   "status": "proved",
   "theorems": [
    "C83_passes_counted",
    "C83_once"
   ],
   "note": "in rocq/theories/Properties/SharedProperties.v."
  },
  {
   "property": "C84",
   "status": "proved",
   "theorems": [
    "C84_never_deletes",
    "C84_replay_refuted"
   ],
   "note": "in rocq/theories/Properties/SharedProperties.v. The code violates the expectation; the theorem proves the violation (witness and mechanism)."
  },
  {
   "property": "C85",
   "status": "proved",
   "theorems": [
    "C85_one_token_per_challenge"
   ],
   "note": "in rocq/theories/Properties/SharedProperties.v."
  },
  {
   "property": "C86",
   "status": "proved",
   "theorems": [
    "C86_site_count",
    "C86_visits"
   ],
   "note": "in rocq/theories/Properties/SiteProperties.v."
  },
  {
   "property": "C87",
   "status": "proved",
   "theorems": [
    "C87_site_told"
   ],
   "note": "in rocq/theories/Properties/SiteProperties.v."
  },
  {
   "property": "C88",
   "status": "proved",
   "theorems": [
    "C88_challenge_from_ladder"
   ],
   "note": "in rocq/theories/Properties/SiteProperties.v."
  },
  {
   "property": "C89",
   "status": "proved",
   "theorems": [
    "C89_quiet_site",
    "C89_calm_site",
    "C89_busy_site",
    "C89_alternates"
   ],
   "note": "in rocq/theories/Properties/SiteProperties.v."
  },
  {
   "property": "C90",
   "status": "proved",
   "theorems": [
    "C90_answers",
    "C90_served"
   ],
   "note": "in rocq/theories/Properties/ModuleProperties.v."
  },
  {
   "property": "C91",
   "status": "proved",
   "theorems": [
    "C91_same_names"
   ],
   "note": "in rocq/theories/Properties/ModuleProperties.v."
  },
  {
   "property": "C92",
   "status": "proved",
   "theorems": [
    "C92_challenge_of_site",
    "C92_pass_earned"
   ],
   "note": "in rocq/theories/Properties/MergedProperties.v."
  },
  {
   "property": "C93",
   "status": "proved",
   "theorems": [
    "C93_duration_text_refuted",
    "C93_texts_differ"
   ],
   "note": "in rocq/theories/Properties/MessageProperties.v. The code violates the expectation; the theorem proves the violation (witness and mechanism)."
  },
  {
   "property": "C94",
   "status": "proved",
   "theorems": [
    "C94_cache_pow",
    "C94_cache_result",
    "C94_add_site",
    "C94_rename",
    "C94_own_use"
   ],
   "note": "in rocq/theories/Properties/MessageProperties.v."
  },
  {
   "property": "C95",
   "status": "proved",
   "theorems": [
    "C95_same_answer"
   ],
   "note": "in rocq/theories/Properties/ParityProperties.v."
  },
  {
   "property": "C96",
   "status": "proved",
   "theorems": [
    "C96_bulk",
    "C96_halves",
    "C96_returned"
   ],
   "note": "in rocq/theories/Properties/BulkProperties.v."
  },
  {
   "property": "C97",
   "status": "proved",
   "theorems": [
    "C97_token_origin",
    "C97_cheap_tokens",
    "C97_pass_origin",
    "C97_cheap_passes"
   ],
   "note": "in rocq/theories/Properties/BulkProperties.v."
  },
  {
   "property": "C98",
   "status": "proved",
   "theorems": [
    "C98_gone_client_refuted"
   ],
   "note": "in rocq/theories/Properties/RedisSystemProperties.v. The code violates the expectation; the theorem proves the violation (witness and mechanism)."
  },
  {
   "property": "C99",
   "status": "proved",
   "theorems": [
    "C99_own_answers",
    "C99_calls",
    "C99_cache_serves",
    "C99_master_serves",
    "C99_not_stuck"
   ],
   "note": "in rocq/theories/Properties/RedisSystemProperties.v."
  },
  {
   "property": "C100",
   "status": "proved",
   "theorems": [
    "C100_deployment"
   ],
   "note": "in rocq/theories/Properties/DeploymentProperties.v."
  },
  {
   "property": "C101",
   "status": "proved",
   "theorems": [
    "C101_once",
    "C101_earned",
    "C101_stored",
    "C101_good"
   ],
   "note": "in rocq/theories/Properties/DeploymentProperties.v."
  },
  {
   "property": "C102",
   "status": "proved",
   "theorems": [
    "C102_stays_refuted",
    "C102_how_many",
    "C102_overlap_refuted"
   ],
   "note": "in rocq/theories/Properties/CleanupProperties.v. The code violates the expectation; the theorem proves the violation (witness and mechanism)."
  },
  {
   "property": "C103",
   "status": "proved",
   "theorems": [
    "C103_abort_refuted",
    "C103_rejected_refuted",
    "C103_only_cause",
    "C103_panics_only_cause"
   ],
   "note": "in rocq/theories/Properties/SystemPanicProperties.v. The code violates the expectation; the theorem proves the violation (witness and mechanism)."
  },
  {
   "property": "C104",
   "status": "proved",
   "theorems": [
    "C104_delays",
    "C104_at_once",
    "C104_answered_once",
    "C104_counted_unanswered_refuted"
   ],
   "note": "in rocq/theories/Properties/DelayProperties.v. The code violates the expectation; the theorem proves the violation (witness and mechanism)."
  },
  {
   "property": "C105",
   "status": "proved",
   "theorems": [
    "C105_bounded",
    "C105_step",
    "C105_attended"
   ],
   "note": "in rocq/theories/Properties/RedisLiveProperties.v."
  },
  {
   "property": "C106",
   "status": "proved",
   "theorems": [
    "C106_as_cancelled",
    "C106_no_loss",
    "C106_earned",
    "C106_once",
    "C106_right_site",
    "C106_only_dead",
    "C106_counted_unanswered"
   ],
   "note": "in rocq/theories/Properties/LossProperties.v."
  },
  {
   "property": "C107",
   "status": "proved",
   "theorems": [
    "C107_can_move",
    "C107_same_sites",
    "C107_first_visitor",
    "C107_never_forgotten_refuted",
    "C107_hard_for_ever_refuted",
    "C107_old_forgets"
   ],
   "note": "in rocq/theories/Properties/RestartProperties.v. The code violates the expectation; the theorem proves the violation (witness and mechanism)."
  },
  {
   "property": "C108",
   "status": "proved",
   "theorems": [
    "C108_stages",
    "C108_recent_refuted"
   ],
   "note": "in rocq/theories/Properties/FreshProperties.v. The code violates the expectation; the theorem proves the violation (witness and mechanism)."
  },
  {
   "property": "C109",
   "status": "proved",
   "theorems": [
    "C109_returns",
    "C109_ends",
    "C109_panics_refuted",
    "C109_spins_refuted",
    "C109_lost"
   ],
   "note": "in rocq/theories/Properties/QueueEndProperties.v. The code violates the expectation; the theorem proves the violation (witness and mechanism)."
  },
  {
   "property": "C110",
   "status": "proved",
   "theorems": [
    "C110_untouched",
    "C110_ineffective_refuted",
    "C110_removed_refuted",
    "C110_token_refuted",
    "C110_renamed_refuted"
   ],
   "note": "in rocq/theories/Properties/OwnerProperties.v. The code violates the expectation; the theorem proves the violation (witness and mechanism)."
  },
  {
   "property": "C111",
   "status": "proved",
   "theorems": [
    "C111_cache",
    "C111_drained",
    "C111_queue_refuted",
    "C111_kept_refuted"
   ],
   "note": "in rocq/theories/Properties/MemoryProperties.v. The code violates the expectation; the theorem proves the violation (witness and mechanism)."
  },
  {
   "property": "C112",
   "status": "proved",
   "theorems": [
    "C112_grammar",
    "C112_messages"
   ],
   "note": "in rocq/theories/Properties/JsonProperties.v."
  },
  {
   "property": "C113",
   "status": "proved",
   "theorems": [
    "C113_bounded",
    "C113_step",
    "C113_attended"
   ],
   "note": "in rocq/theories/Properties/TurnProperties.v."
  },
  {
   "property": "C114",
   "status": "proved",
   "theorems": [
    "C114_blind",
    "C114_odds",
    "C114_space",
    "C114_drawn"
   ],
   "note": "in rocq/theories/Properties/GuessProperties.v."
  },
  {
   "property": "C115",
   "status": "proved",
   "theorems": [
    "C115_blind",
    "C115_odds",
    "C115_plain",
    "C115_drawn"
   ],
   "note": "in rocq/theories/Properties/RedisGuessProperties.v."
  },
  {
   "property": "C116",
   "status": "proved",
   "theorems": [
    "C116_accepted",
    "C116_good"
   ],
   "note": "in rocq/theories/Properties/HonestProperties.v."
  },
  {
   "property": "C117",
   "status": "proved",
   "theorems": [
    "C117_accepted",
    "C117_quiet"
   ],
   "note": "in rocq/theories/Properties/VisitorProperties.v."
  },
  {
   "property": "C118",
   "status": "proved",
   "theorems": [
    "C118_check_behind_pass",
    "C118_earned",
    "C118_challenge",
    "C118_once",
    "C118_good_everywhere",
    "C118_honest"
   ],
   "note": "in rocq/theories/Properties/PoolProperties.v."
  },
  {
   "property": "C119",
   "status": "proved",
   "theorems": [
    "C119_general",
    "C119_challenge",
    "C119_pass_earned",
    "C119_configured",
    "C119_accepted"
   ],
   "note": "in rocq/theories/Properties/MixedProperties.v."
  },
  {
   "property": "C120",
   "status": "proved",
   "theorems": [
    "C120_in_memory",
    "C120_redis"
   ],
   "note": "in rocq/theories/Properties/PoolMasterProperties.v."
  }
 ]
}