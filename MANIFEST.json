{
 "claims": [
  {
   "property": "C01",
   "status": "proved",
   "theorems": [
    "C01_lossless_table",
    "C01_lossless",
    "C01_prefix"
   ],
   "note": ""
  },
  {
   "property": "C02",
   "status": "proved",
   "theorems": [
    "C02_depth16",
    "C02_not_injective"
   ],
   "note": ""
  },
  {
   "property": "C03",
   "status": "proved",
   "theorems": [
    "C03_table",
    "C03_decodable",
    "C03_decodable_any"
   ],
   "note": ""
  },
  {
   "property": "C04",
   "status": "proved",
   "theorems": [
    "C04_normalizer",
    "C04_hold",
    "C04_category_meaning"
   ],
   "note": ""
  },
  {
   "property": "C05",
   "status": "proved",
   "theorems": [
    "C05_difference",
    "C05_hold"
   ],
   "note": ""
  },
  {
   "property": "C06",
   "status": "proved",
   "theorems": [
    "C06_predictor"
   ],
   "note": ""
  },
  {
   "property": "C07",
   "status": "proved",
   "theorems": [
    "C07_encoder"
   ],
   "note": ""
  },
  {
   "property": "C08",
   "status": "proved",
   "theorems": [
    "C08_merge"
   ],
   "note": ""
  },
  {
   "property": "C09",
   "status": "proved",
   "theorems": [
    "C09_pipeline"
   ],
   "note": ""
  },
  {
   "property": "C10",
   "status": "proved",
   "theorems": [
    "C10_signals"
   ],
   "note": ""
  },
  {
   "property": "C11",
   "status": "proved",
   "theorems": [
    "C11_single_group_rows",
    "C11_one_group",
    "C11_two_groups",
    "C11_end_missed",
    "C11_core_never_ends"
   ],
   "note": ""
  },
  {
   "property": "C12",
   "status": "proved",
   "theorems": [
    "C12_no_overflow"
   ],
   "note": ""
  },
  {
   "property": "C13",
   "status": "proved",
   "theorems": [
    "C13_converter"
   ],
   "note": ""
  },
  {
   "property": "C14",
   "status": "proved",
   "theorems": [
    "C14_packer"
   ],
   "note": ""
  },
  {
   "property": "C15",
   "status": "proved",
   "theorems": [
    "C15_end_word"
   ],
   "note": ""
  },
  {
   "property": "C16",
   "status": "proved",
   "theorems": [
    "C16_one_frame",
    "C16_closed"
   ],
   "note": ""
  },
  {
   "property": "C17",
   "status": "proved",
   "theorems": [
    "C17_stable"
   ],
   "note": ""
  },
  {
   "property": "C18",
   "status": "proved",
   "theorems": [
    "C18_completes",
    "C18_from_any_state",
    "C18_bounded"
   ],
   "note": ""
  },
  {
   "property": "C19",
   "status": "proved",
   "theorems": [
    "C19_reversible",
    "C19_stuffing"
   ],
   "note": ""
  },
  {
   "property": "C20",
   "status": "proved",
   "theorems": [
    "C20_fix1",
    "C20_stable"
   ],
   "note": ""
  },
  {
   "property": "C21",
   "status": "proved",
   "theorems": [
    "C21_fix2",
    "C21_ends"
   ],
   "note": ""
  },
  {
   "property": "C22",
   "status": "proved",
   "theorems": [
    "C22_markers",
    "C22_completes"
   ],
   "note": ""
  },
  {
   "property": "C23",
   "status": "proved",
   "theorems": [
    "C23_single_word_lost"
   ],
   "note": ""
  },
  {
   "property": "C24",
   "status": "proved",
   "theorems": [
    "C24_no_marker_in_payload",
    "C24_delimitable"
   ],
   "note": ""
  },
  {
   "property": "C25",
   "status": "proved",
   "theorems": [
    "C25_frames",
    "C25_decodable",
    "C25_lossless_or_flagged",
    "C25_shipped"
   ],
   "note": ""
  },
  {
   "property": "C26",
   "status": "proved",
   "theorems": [
    "C26_not_early",
    "C26_terminates",
    "C26_cut_decodes",
    "C26_cut_frame",
    "C26_timer",
    "C26_timer_any",
    "C26_truncates"
   ],
   "note": ""
  },
  {
   "property": "C27",
   "status": "proved",
   "theorems": [
    "C27_when",
    "C27_restarts",
    "C27_ready_again"
   ],
   "note": ""
  },
  {
   "property": "C28",
   "status": "proved",
   "theorems": [
    "C28_core",
    "C28_repeats"
   ],
   "note": ""
  },
  {
   "property": "C29",
   "status": "proved",
   "theorems": [
    "C29_withdrawn",
    "C29_stable_beta",
    "C29_stable_micro",
    "C29_ninth",
    "C29_endflag",
    "C29_micro"
   ],
   "note": ""
  },
  {
   "property": "C30",
   "status": "proved",
   "theorems": [
    "C30_never_normal",
    "C30_words_lost",
    "C30_every_frame"
   ],
   "note": ""
  },
  {
   "property": "C31",
   "status": "proved",
   "theorems": [
    "C31_fifo"
   ],
   "note": ""
  },
  {
   "property": "C32",
   "status": "proved",
   "theorems": [
    "C32_sequential",
    "C32_write_effect",
    "C32_addresses",
    "C32_answered"
   ],
   "note": ""
  },
  {
   "property": "C33",
   "status": "proved",
   "theorems": [
    "C33_low_word",
    "C33_high_word",
    "C33_upper_bits_only_clear",
    "C33_length_lost"
   ],
   "note": ""
  },
  {
   "property": "C34",
   "status": "proved",
   "theorems": [
    "C34_errors"
   ],
   "note": ""
  },
  {
   "property": "C35",
   "status": "proved",
   "theorems": [
    "C35_write_answer_lost",
    "C35_read_answer_lost",
    "C35_wrong_address"
   ],
   "note": ""
  },
  {
   "property": "C36",
   "status": "proved",
   "theorems": [
    "C36_packing",
    "C36_first_word_lost",
    "C36_drains",
    "C36_no_overhead",
    "C36_stable",
    "C36_end"
   ],
   "note": ""
  },
  {
   "property": "C37",
   "status": "proved",
   "theorems": [
    "C37_packing",
    "C37_exact_without_stall",
    "C37_exact_always_ready",
    "C37_near",
    "C37_first_word_lost",
    "C37_drains",
    "C37_stable"
   ],
   "note": ""
  },
  {
   "property": "C38",
   "status": "proved",
   "theorems": [
    "C38_splitting",
    "C38_drains",
    "C38_full_rate",
    "C38_stable"
   ],
   "note": ""
  },
  {
   "property": "C39",
   "status": "proved",
   "theorems": [
    "C39_splitting",
    "C39_first_word_lost",
    "C39_stable",
    "C39_drains"
   ],
   "note": ""
  },
  {
   "property": "C40",
   "status": "proved",
   "theorems": [
    "C40_wlast_position",
    "C40_burst_misaligned",
    "C40_last_beat_withdrawn",
    "C40_active_runs_away",
    "C40_ready_slave",
    "C40_unconfirmed",
    "C40_error_flag",
    "C40_response_taken",
    "C40_response_idle",
    "C40_disabled_never_confirms",
    "C40_address_held",
    "C40_underrun_only_beat_16",
    "C40_beats_in_order"
   ],
   "note": ""
  },
  {
   "property": "C41",
   "status": "proved",
   "theorems": [
    "C41_sequence",
    "C41_write_addresses",
    "C41_read_addresses",
    "C41_address_stable"
   ],
   "note": ""
  },
  {
   "property": "C42",
   "status": "proved",
   "theorems": [
    "C42_write_limit_ignored",
    "C42_read_limit_ignored",
    "C42_read_unbounded",
    "C42_read_counter",
    "C42_write_unbounded",
    "C42_write_counter"
   ],
   "note": ""
  },
  {
   "property": "C43",
   "status": "proved",
   "theorems": [
    "C43_delayer",
    "C43_delayer_two",
    "C43_reverser",
    "C43_reverser_sync",
    "C43_counters",
    "C43_pairs"
   ],
   "note": ""
  },
  {
   "property": "C44",
   "status": "proved",
   "theorems": [
    "C44_bounds",
    "C44_inverted",
    "C44_predictor",
    "C44_multiples_not_combined"
   ],
   "note": ""
  },
  {
   "property": "C45",
   "status": "proved",
   "theorems": [
    "C45_size",
    "C45_stuffed"
   ],
   "note": ""
  },
  {
   "property": "C46",
   "status": "proved",
   "theorems": [
    "C46_calls",
    "C46_get_ssss",
    "C46_get_debug",
    "C46_hardware"
   ],
   "note": ""
  },
  {
   "property": "C47",
   "status": "proved",
   "theorems": [
    "C47_sequential",
    "C47_write_effect",
    "C47_addresses",
    "C47_verilog"
   ],
   "note": ""
  },
  {
   "property": "C48",
   "status": "proved",
   "theorems": [
    "C48_force_needs_payload",
    "C48_core"
   ],
   "note": ""
  },
  {
   "property": "C49",
   "status": "proved",
   "theorems": [
    "C49_fifo",
    "C49_thresholds"
   ],
   "note": ""
  },
  {
   "property": "C50",
   "status": "proved",
   "theorems": [
    "C50_no_loss",
    "C50_rlast_without_rvalid"
   ],
   "note": ""
  },
  {
   "property": "C51",
   "status": "proved",
   "theorems": [
    "C51_packing64",
    "C51_packing32",
    "C51_stream64",
    "C51_stream32",
    "C51_file64",
    "C51_file32",
    "C51_packets",
    "C51_master64",
    "C51_master32"
   ],
   "note": ""
  },
  {
   "property": "C52",
   "status": "proved",
   "theorems": [
    "C52_never_complete",
    "C52_core_output",
    "C52_dma_stops",
    "C52_stale_beat",
    "C52_samples",
    "C52_read_addresses",
    "C52_write_addresses",
    "C52_registers",
    "C52_not_started",
    "C52_started",
    "C52_no_end_mark"
   ],
   "note": ""
  },
  {
   "property": "C53",
   "status": "proved",
   "theorems": [
    "C53_ready_sink",
    "C53_frames",
    "C53_samples",
    "C53_first_frame",
    "C53_stalled_sink_loses"
   ],
   "note": ""
  },
  {
   "property": "C54",
   "status": "proved",
   "theorems": [
    "C54_decode"
   ],
   "note": ""
  },
  {
   "property": "C55",
   "status": "proved",
   "theorems": [
    "C55_overread"
   ],
   "note": ""
  },
  {
   "property": "C56",
   "status": "proved",
   "theorems": [
    "C56_file",
    "C56_core",
    "C56_shipped"
   ],
   "note": ""
  },
  {
   "property": "C57",
   "status": "proved",
   "theorems": [
    "C57_narrow"
   ],
   "note": ""
  },
  {
   "property": "C58",
   "status": "proved",
   "theorems": [
    "C58_no_class16",
    "C58_class16"
   ],
   "note": ""
  },
  {
   "property": "C59",
   "status": "proved",
   "theorems": [
    "C59_validate",
    "C59_validate_short",
    "C59_divisible",
    "C59_reorder",
    "C59_passes",
    "C59_sound",
    "C59_cut_fails",
    "C59_force_unreported",
    "C59_odd_blind",
    "C59_zero_dest"
   ],
   "note": ""
  },
  {
   "property": "C60",
   "status": "proved",
   "theorems": [
    "C60_program",
    "C60_source",
    "C60_sync"
   ],
   "note": ""
  },
  {
   "property": "C61",
   "status": "proved",
   "theorems": [
    "C61_every_frame",
    "C61_received",
    "C61_shipped"
   ],
   "note": ""
  },
  {
   "property": "C62",
   "status": "proved",
   "theorems": [
    "C62_lossless",
    "C62_one_frame",
    "C62_completes"
   ],
   "note": ""
  },
  {
   "property": "C63",
   "status": "proved",
   "theorems": [
    "C63_core_sequential",
    "C63_dma_sequential",
    "C63_core_ids",
    "C63_dma_ids",
    "C63_crossed_ids"
   ],
   "note": ""
  },
  {
   "property": "C64",
   "status": "proved",
   "theorems": [
    "C64_any",
    "C64_decode",
    "C64_run_of_one"
   ],
   "note": ""
  },
  {
   "property": "C65",
   "status": "proved",
   "theorems": [
    "C65_table"
   ],
   "note": ""
  },
  {
   "property": "C66",
   "status": "proved",
   "theorems": [
    "C66_encode"
   ],
   "note": ""
  },
  {
   "property": "C67",
   "status": "proved",
   "theorems": [
    "C67_any_size",
    "C67_roundtrip",
    "C67_bits14",
    "C67_one_row"
   ],
   "note": ""
  },
  {
   "property": "C68",
   "status": "proved",
   "theorems": [
    "C68_bound",
    "C68_overflow",
    "C68_refused"
   ],
   "note": ""
  },
  {
   "property": "C69",
   "status": "proved",
   "theorems": [
    "C69_delinearize",
    "C69_wrong_class"
   ],
   "note": ""
  },
  {
   "property": "C70",
   "status": "proved",
   "theorems": [
    "C70_pred6_any",
    "C70_decode",
    "C70_pred6",
    "C70_roundtrip"
   ],
   "note": ""
  },
  {
   "property": "C71",
   "status": "proved",
   "theorems": [
    "C71_pred6",
    "C71_pred6_wrong",
    "C71_overlap",
    "C71_left"
   ],
   "note": ""
  },
  {
   "property": "C72",
   "status": "proved",
   "theorems": [
    "C72_open",
    "C72_reads",
    "C72_terminates",
    "C72_write_past_end",
    "C72_eoi"
   ],
   "note": ""
  },
  {
   "property": "C73",
   "status": "proved",
   "theorems": [
    "C73_writes",
    "C73_writes6",
    "C73_pred6_empty",
    "C73_safe",
    "C73_uninit",
    "C73_no_components"
   ],
   "note": ""
  },
  {
   "property": "C74",
   "status": "proved",
   "theorems": [
    "C74_unchecked",
    "C74_pred6"
   ],
   "note": ""
  },
  {
   "property": "C75",
   "status": "proved",
   "theorems": [
    "C75_ignored",
    "C75_tlast",
    "C75_words_lost"
   ],
   "note": ""
  },
  {
   "property": "C76",
   "status": "proved",
   "theorems": [
    "C76_reach",
    "C76_bad_sample",
    "C76_one_past",
    "C76_first_row"
   ],
   "note": ""
  },
  {
   "property": "C77",
   "status": "proved",
   "theorems": [
    "C77_complete_words",
    "C77_stalled_source",
    "C77_bounded",
    "C77_bounded_exact",
    "C77_silent",
    "C77_any_source",
    "C77_numbers"
   ],
   "note": ""
  },
  {
   "property": "C78",
   "status": "proved",
   "theorems": [
    "C78_ends_iff"
   ],
   "note": ""
  },
  {
   "property": "C79",
   "status": "proved",
   "theorems": [
    "C79_same",
    "C79_decode",
    "C79_class16"
   ],
   "note": ""
  },
  {
   "property": "C80",
   "status": "proved",
   "theorems": [
    "C80_full_rate",
    "C80_paced_sink",
    "C80_smooth",
    "C80_shipped",
    "C80_frame_time",
    "C80_bandwidth"
   ],
   "note": ""
  },
  {
   "property": "C81",
   "status": "proved",
   "theorems": [
    "C81_words",
    "C81_budget",
    "C81_shipped",
    "C81_rough"
   ],
   "note": ""
  },
  {
   "property": "C82",
   "status": "proved",
   "theorems": [
    "C82_deadline",
    "C82_not_early",
    "C82_in_time",
    "C82_shipped"
   ],
   "note": ""
  },
  {
   "property": "C83",
   "status": "proved",
   "theorems": [
    "C83_open",
    "C83_terminates",
    "C83_short",
    "C83_decode",
    "C83_safe",
    "C83_unsafe"
   ],
   "note": ""
  },
  {
   "property": "C84",
   "status": "proved",
   "theorems": [
    "C84_delay",
    "C84_frame_taken",
    "C84_shipped"
   ],
   "note": ""
  },
  {
   "property": "C85",
   "status": "proved",
   "theorems": [
    "C85_drain",
    "C85_frame_time",
    "C85_numbers"
   ],
   "note": ""
  },
  {
   "property": "C86",
   "status": "proved",
   "theorems": [
    "C86_in_time",
    "C86_shipped"
   ],
   "note": ""
  },
  {
   "property": "C87",
   "status": "proved",
   "theorems": [
    "C87_too_many",
    "C87_too_many_n",
    "C87_no_columns"
   ],
   "note": ""
  },
  {
   "property": "C88",
   "status": "proved",
   "theorems": [
    "C88_program",
    "C88_no_leak",
    "C88_open",
    "C88_same",
    "C88_exact",
    "C88_example"
   ],
   "note": ""
  },
  {
   "property": "C89",
   "status": "proved",
   "theorems": [
    "C89_encode",
    "C89_dies",
    "C89_same",
    "C89_example"
   ],
   "note": ""
  },
  {
   "property": "C90",
   "status": "proved",
   "theorems": [
    "C90_markers",
    "C90_force_end",
    "C90_auto_reset",
    "C90_register_file",
    "C90_signals",
    "C90_difference",
    "C90_output_handler",
    "C90_fix_0xff",
    "C90_delayer",
    "C90_address_generator",
    "C90_debug_module",
    "C90_converter",
    "C90_input_handler",
    "C90_predictor",
    "C90_fix_0xff2",
    "C90_normalize",
    "C90_encode",
    "C90_merge",
    "C90_lj92_pipeline_fifo",
    "C90_converter_fifo",
    "C90_b16_b64",
    "C90_b16_b40",
    "C90_b64_b32_2",
    "C90_axihp_writer",
    "C90_axihp_reader",
    "C90_axi_lite",
    "C90_dma_axi_lite",
    "C90_core_axi_lite"
   ],
   "note": ""
  },
  {
   "property": "C91",
   "status": "proved",
   "theorems": [
    "C91_top",
    "C91_lossless_or_flagged",
    "C91_every_frame",
    "C91_in_time",
    "C91_deadline",
    "C91_decoder",
    "C91_stable",
    "C91_not_withdrawn",
    "C91_budget"
   ],
   "note": ""
  }
 ]
}