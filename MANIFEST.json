{
 "claims": [
  {
   "property": "C01",
   "status": "proved",
   "theorems": [
    "C01_add_sub",
    "C01_add_overflow",
    "C01_sub_overflow",
    "C01_uint64_operand"
   ],
   "note": ""
  },
  {
   "property": "C02",
   "status": "proved",
   "theorems": [
    "C02_mul"
   ],
   "note": ""
  },
  {
   "property": "C03",
   "status": "proved",
   "theorems": [
    "C03_unsigned_order",
    "C03_uint64_order",
    "C03_signed_order"
   ],
   "note": ""
  },
  {
   "property": "C04",
   "status": "proved",
   "theorems": [
    "C04_shifts"
   ],
   "note": ""
  },
  {
   "property": "C05",
   "status": "proved",
   "theorems": [
    "C05_bitwise",
    "C05_byte",
    "C05_extend_sign"
   ],
   "note": ""
  },
  {
   "property": "C06",
   "status": "proved",
   "theorems": [
    "C06_div",
    "C06_mod"
   ],
   "note": ""
  },
  {
   "property": "C07",
   "status": "proved",
   "theorems": [
    "C07_sdiv",
    "C07_smod",
    "C07_abs"
   ],
   "note": ""
  },
  {
   "property": "C08",
   "status": "proved",
   "theorems": [
    "C08_udivrem"
   ],
   "note": ""
  },
  {
   "property": "C09",
   "status": "proved",
   "theorems": [
    "C09_addmod"
   ],
   "note": ""
  },
  {
   "property": "C10",
   "status": "proved",
   "theorems": [
    "C10_mulmod",
    "C10_reciprocal",
    "C10_reduce4",
    "C10_with_reciprocal",
    "C10_leadingZeros"
   ],
   "note": ""
  },
  {
   "property": "C11",
   "status": "proved",
   "theorems": [
    "C11_exp"
   ],
   "note": ""
  },
  {
   "property": "C12",
   "status": "proved",
   "theorems": [
    "C12_sqrt"
   ],
   "note": ""
  },
  {
   "property": "C13",
   "status": "proved",
   "theorems": [
    "C13_bitlen",
    "C13_bytelen"
   ],
   "note": ""
  },
  {
   "property": "C14",
   "status": "proved",
   "theorems": [
    "C14_setbytes",
    "C14_setbytes_n",
    "C14_setbytes_29",
    "C14_setbytes_29_refuted",
    "C14_bytes",
    "C14_roundtrip",
    "C14_writers"
   ],
   "note": ""
  },
  {
   "property": "C15",
   "status": "proved",
   "theorems": [
    "C15_accepts",
    "C15_hex",
    "C15_roundtrip",
    "C15_receiver",
    "C15_receiver_zero",
    "C15_receiver_refuted",
    "C15_json"
   ],
   "note": ""
  },
  {
   "property": "C16",
   "status": "proved",
   "theorems": [
    "C16_tobig",
    "C16_frombig",
    "C16_roundtrip"
   ],
   "note": ""
  },
  {
   "property": "C17",
   "status": "proved",
   "theorems": [
    "C17_canonical",
    "C17_uniquely_decodable"
   ],
   "note": ""
  },
  {
   "property": "C18",
   "status": "proved",
   "theorems": [
    "C18_add_sub",
    "C18_word_operand",
    "C18_mul",
    "C18_div",
    "C18_bits",
    "C18_shift",
    "C18_addmod",
    "C18_mulmod",
    "C18_sqrt"
   ],
   "note": ""
  },
  {
   "property": "C19",
   "status": "proved",
   "theorems": [
    "C19_muldiv_exact",
    "C19_muldiv_up_exact"
   ],
   "note": ""
  },
  {
   "property": "C20",
   "status": "proved",
   "theorems": [
    "C20_panic_set",
    "C20_safe_region",
    "C20_never_panics_refuted"
   ],
   "note": ""
  },
  {
   "property": "C21",
   "status": "proved",
   "theorems": [
    "C21_amount0",
    "C21_amount1",
    "C21_signed"
   ],
   "note": ""
  },
  {
   "property": "C22",
   "status": "proved",
   "theorems": [
    "C22_input_down",
    "C22_input_up",
    "C22_output_down",
    "C22_output_up"
   ],
   "note": ""
  },
  {
   "property": "C23",
   "status": "proved",
   "theorems": [
    "C23_within_target"
   ],
   "note": ""
  },
  {
   "property": "C24",
   "status": "proved",
   "theorems": [
    "C24_exact_input",
    "C24_exact_output"
   ],
   "note": ""
  },
  {
   "property": "C25",
   "status": "proved",
   "theorems": [
    "C25_fee_exact"
   ],
   "note": ""
  },
  {
   "property": "C26",
   "status": "proved",
   "theorems": [
    "C26_strictly_increasing",
    "C26_domain",
    "C26_ends"
   ],
   "note": ""
  },
  {
   "property": "C27",
   "status": "proved",
   "theorems": [
    "C27_inverts",
    "C27_unique",
    "C27_panics",
    "C27_roundtrip"
   ],
   "note": ""
  },
  {
   "property": "C28",
   "status": "proved",
   "theorems": [
    "C28_accuracy",
    "C28_constants",
    "C28_bits"
   ],
   "note": ""
  },
  {
   "property": "C29",
   "status": "proved",
   "theorems": [
    "C29_floor",
    "C29_ceil",
    "C29_round"
   ],
   "note": ""
  },
  {
   "property": "C30",
   "status": "proved",
   "theorems": [
    "C30_placed",
    "C30_histories",
    "C30_get",
    "C30_update",
    "C30_clear"
   ],
   "note": ""
  },
  {
   "property": "C31",
   "status": "proved",
   "theorems": [
    "C31_down",
    "C31_up",
    "C31_panics",
    "C31_down_refuted"
   ],
   "note": ""
  },
  {
   "property": "C32",
   "status": "proved",
   "theorems": [
    "C32_additive",
    "C32_formula",
    "C32_panics"
   ],
   "note": ""
  },
  {
   "property": "C33",
   "status": "proved",
   "theorems": [
    "C33_cross",
    "C33_twice",
    "C33_effect"
   ],
   "note": ""
  },
  {
   "property": "C34",
   "status": "proved",
   "theorems": [
    "C34_liquidity"
   ],
   "note": ""
  },
  {
   "property": "C35",
   "status": "proved",
   "theorems": [
    "C35_bracket",
    "C35_new",
    "C35_strict"
   ],
   "note": ""
  },
  {
   "property": "C36",
   "status": "proved",
   "theorems": [
    "C36_exact_input",
    "C36_exact_output",
    "C36_direction",
    "C36_frame",
    "C36_direction_refuted"
   ],
   "note": ""
  },
  {
   "property": "C37",
   "status": "proved",
   "theorems": [
    "C37_amounts"
   ],
   "note": ""
  },
  {
   "property": "C38",
   "status": "proved",
   "theorems": [
    "C38_up",
    "C38_down",
    "C38_decided",
    "C38_same",
    "C38_terminates_refuted"
   ],
   "note": ""
  },
  {
   "property": "C39",
   "status": "proved",
   "theorems": [
    "C39_mint_burn",
    "C39_mint_burn_strategy"
   ],
   "note": ""
  },
  {
   "property": "C40",
   "status": "proved",
   "theorems": [
    "C40_no_profit"
   ],
   "note": ""
  },
  {
   "property": "C41",
   "status": "proved",
   "theorems": [
    "C41_budget",
    "C41_amounts_for_liquidity"
   ],
   "note": ""
  },
  {
   "property": "C42",
   "status": "proved",
   "theorems": [
    "C42_keys",
    "C42_separate",
    "C42_keyEq",
    "C42_distinct_refuted"
   ],
   "note": ""
  },
  {
   "property": "C43",
   "status": "proved",
   "theorems": [
    "C43_update",
    "C43_panics",
    "C43_parts",
    "C43_updates"
   ],
   "note": ""
  },
  {
   "property": "C44",
   "status": "proved",
   "theorems": [
    "C44_collect"
   ],
   "note": ""
  },
  {
   "property": "C45",
   "status": "proved",
   "theorems": [
    "C45_flash"
   ],
   "note": ""
  },
  {
   "property": "C46",
   "status": "proved",
   "theorems": [
    "C46_isolated",
    "C46_copy",
    "C46_ticks_shared_refuted",
    "C46_memory_agrees"
   ],
   "note": ""
  },
  {
   "property": "C47",
   "status": "proved",
   "theorems": [
    "C47_ring_buffer",
    "C47_never_full",
    "C47_average",
    "C47_volatility",
    "C47_volatility_of_one"
   ],
   "note": ""
  },
  {
   "property": "C48",
   "status": "proved",
   "theorems": [
    "C48_accepted",
    "C48_overflow_detected_refuted"
   ],
   "note": ""
  },
  {
   "property": "C49",
   "status": "proved",
   "theorems": [
    "C49_replays_the_market",
    "C49_market_alone",
    "C49_follows_the_plan",
    "C49_one_plan",
    "C49_starts_once"
   ],
   "note": ""
  },
  {
   "property": "C50",
   "status": "proved",
   "theorems": [
    "C50_snapshots",
    "C50_values_recorded",
    "C50_price_snapshot_at_every_transaction"
   ],
   "note": ""
  },
  {
   "property": "C51",
   "status": "proved",
   "theorems": [
    "C51_init",
    "C51_rebalance",
    "C51_burn_all",
    "C51_no_provision"
   ],
   "note": ""
  },
  {
   "property": "C52",
   "status": "proved",
   "theorems": [
    "C52_idempotent",
    "C52_paid_twice_refuted"
   ],
   "note": ""
  },
  {
   "property": "C53",
   "status": "proved",
   "theorems": [
    "C53_any_schedule",
    "C53_no_deadlock",
    "C53_batch",
    "C53_main"
   ],
   "note": ""
  },
  {
   "property": "C54",
   "status": "proved",
   "theorems": [
    "C54_amount",
    "C54_meaning",
    "C54_swap",
    "C54_mint_burn",
    "C54_flash"
   ],
   "note": ""
  },
  {
   "property": "C55",
   "status": "proved",
   "theorems": [
    "C55_power",
    "C55_outside"
   ],
   "note": ""
  },
  {
   "property": "C56",
   "status": "proved",
   "theorems": [
    "C56_log2",
    "C56_zero"
   ],
   "note": ""
  },
  {
   "property": "C57",
   "status": "proved",
   "theorems": [
    "C57_step_returns",
    "C57_panics_above_refuted"
   ],
   "note": ""
  },
  {
   "property": "C58",
   "status": "proved",
   "theorems": [
    "C58_distribution"
   ],
   "note": ""
  },
  {
   "property": "C59",
   "status": "proved",
   "theorems": [
    "C59_fees_paid"
   ],
   "note": ""
  },
  {
   "property": "C60",
   "status": "proved",
   "theorems": [
    "C60_init",
    "C60_rebalance"
   ],
   "note": ""
  },
  {
   "property": "C61",
   "status": "proved",
   "theorems": [
    "C61_snapshot"
   ],
   "note": ""
  },
  {
   "property": "C62",
   "status": "proved",
   "theorems": [
    "C62_value",
    "C62_high_price_refuted"
   ],
   "note": ""
  },
  {
   "property": "C63",
   "status": "proved",
   "theorems": [
    "C63_init",
    "C63_rebalance"
   ],
   "note": ""
  },
  {
   "property": "C64",
   "status": "proved",
   "theorems": [
    "C64_drawdown",
    "C64_zero_start_refuted"
   ],
   "note": ""
  },
  {
   "property": "C65",
   "status": "proved",
   "theorems": [
    "C65_fields",
    "C65_total",
    "C65_after_run"
   ],
   "note": ""
  },
  {
   "property": "C66",
   "status": "proved",
   "theorems": [
    "C66_total",
    "C66_rank",
    "C66_returns"
   ],
   "note": ""
  },
  {
   "property": "C67",
   "status": "proved",
   "theorems": [
    "C67_down",
    "C67_down_zero",
    "C67_std",
    "C67_short",
    "C67_std_refuted"
   ],
   "note": ""
  },
  {
   "property": "C68",
   "status": "proved",
   "theorems": [
    "C68_return",
    "C68_numbers",
    "C68_saved",
    "C68_lost"
   ],
   "note": ""
  },
  {
   "property": "C69",
   "status": "proved",
   "theorems": [
    "C69_worth",
    "C69_solvent",
    "C69_way_refuted",
    "C69_keys_refuted"
   ],
   "note": ""
  },
  {
   "property": "C70",
   "status": "proved",
   "theorems": [
    "C70_swap",
    "C70_mint",
    "C70_burn"
   ],
   "note": ""
  },
  {
   "property": "C71",
   "status": "proved",
   "theorems": [
    "C71_no_gain",
    "C71_way_refuted"
   ],
   "note": ""
  },
  {
   "property": "C72",
   "status": "proved",
   "theorems": [
    "C72_unreached",
    "C72_unlimited",
    "C72_reached_refuted"
   ],
   "note": ""
  },
  {
   "property": "C73",
   "status": "proved",
   "theorems": [
    "C73_conserved",
    "C73_payments",
    "C73_keys_refuted"
   ],
   "note": ""
  },
  {
   "property": "C74",
   "status": "proved",
   "theorems": [
    "C74_swap_no_panic",
    "C74_swap_returns",
    "C74_swap_down",
    "C74_unlimited_up",
    "C74_swap_empty",
    "C74_mint",
    "C74_burn",
    "C74_flash",
    "C74_mint_strategy",
    "C74_burn_strategy"
   ],
   "note": ""
  },
  {
   "property": "C75",
   "status": "proved",
   "theorems": [
    "C75_left_alone",
    "C75_burn",
    "C75_mint",
    "C75_minted",
    "C75_burnt",
    "C75_small_refuted"
   ],
   "note": ""
  },
  {
   "property": "C76",
   "status": "proved",
   "theorems": [
    "C76_any_schedule",
    "C76_crash",
    "C76_ends",
    "C76_extends",
    "C76_file",
    "C76_starts",
    "C76_short",
    "C76_written",
    "C76_readable"
   ],
   "note": ""
  },
  {
   "property": "C77",
   "status": "proved",
   "theorems": [
    "C77_same_as_search",
    "C77_brackets",
    "C77_inverts",
    "C77_unchecked"
   ],
   "note": ""
  },
  {
   "property": "C78",
   "status": "proved",
   "theorems": [
    "C78_fuzz",
    "C78_only_sqrt",
    "C78_binary",
    "C78_ternary",
    "C78_detects_unary",
    "C78_detects_binary",
    "C78_detects_ternary"
   ],
   "note": ""
  },
  {
   "property": "C79",
   "status": "proved",
   "theorems": [
    "C79_liquidity",
    "C79_band",
    "C79_band_total_refuted",
    "C79_flat_band",
    "C79_start_at_first"
   ],
   "note": ""
  },
  {
   "property": "C80",
   "status": "proved",
   "theorems": [
    "C80_returns",
    "C80_checked",
    "C80_program"
   ],
   "note": ""
  },
  {
   "property": "C81",
   "status": "proved",
   "theorems": [
    "C81_input",
    "C81_output",
    "C81_wrap_refuted",
    "C81_way_refuted"
   ],
   "note": ""
  },
  {
   "property": "C82",
   "status": "proved",
   "theorems": [
    "C82_ask",
    "C82_pay",
    "C82_equal_refuted"
   ],
   "note": ""
  },
  {
   "property": "C83",
   "status": "proved",
   "theorems": [
    "C83_down",
    "C83_up",
    "C83_up_refuted"
   ],
   "note": ""
  },
  {
   "property": "C84",
   "status": "proved",
   "theorems": [
    "C84_down",
    "C84_up",
    "C84_up_refuted"
   ],
   "note": ""
  },
  {
   "property": "C85",
   "status": "proved",
   "theorems": [
    "C85_same",
    "C85_amount",
    "C85_pays_refuted"
   ],
   "note": ""
  },
  {
   "property": "C86",
   "status": "proved",
   "theorems": [
    "C86_down",
    "C86_down_refuted",
    "C86_up"
   ],
   "note": ""
  },
  {
   "property": "C87",
   "status": "proved",
   "theorems": [
    "C87_down",
    "C87_up",
    "C87_liquidity",
    "C87_down_refuted",
    "C87_up_refuted"
   ],
   "note": ""
  },
  {
   "property": "C88",
   "status": "proved",
   "theorems": [
    "C88_position",
    "C88_init",
    "C88_rebalance",
    "C88_value",
    "C88_init_now",
    "C88_rebalance_now",
    "C88_swap_refuted"
   ],
   "note": ""
  },
  {
   "property": "C89",
   "status": "proved",
   "theorems": [
    "C89_amounts",
    "C89_next",
    "C89_step",
    "C89_liquidity",
    "C89_ratio",
    "C89_tick",
    "C89_prices",
    "C89_sqrt"
   ],
   "note": ""
  },
  {
   "property": "C90",
   "status": "proved",
   "theorems": [
    "C90_new",
    "C90_positions",
    "C90_swaps",
    "C90_history",
    "C90_carry",
    "C90_liquidity"
   ],
   "note": ""
  },
  {
   "property": "C91",
   "status": "proved",
   "theorems": [
    "C91_strategies",
    "C91_backtest"
   ],
   "note": ""
  },
  {
   "property": "C92",
   "status": "proved",
   "theorems": [
    "C92_calls_are_calls_on_values",
    "C92_a_program_from_its_start",
    "C92_other_pools_are_left_alone",
    "C92_a_new_pool_keeps_the_price_variable",
    "C92_a_swap_replaces_the_price_variable",
    "C92_a_clone_shares_the_ticks"
   ],
   "note": ""
  },
  {
   "property": "C93",
   "status": "proved",
   "theorems": [
    "C93_a_run_is_a_run_on_values",
    "C93_a_back_test_is_a_back_test_on_values",
    "C93_back_tests_of_a_new_pool_are_independent",
    "C93_back_tests_of_a_pool_with_ticks_are_independent_refuted"
   ],
   "note": ""
  }
 ]
}