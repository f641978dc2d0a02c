{"claims": [
 {"property": "C01", "status": "proved", "theorems": ["C01_books_balance", "C01_postings_only_grow"], "note": ""},
 {"property": "C02", "status": "proved", "theorems": ["C02_position_is_sum_of_fills"], "note": "at most 10000 open orders configured; the benchmark-only call check_active_orders excluded because it reports nothing"},
 {"property": "C03", "status": "proved", "theorems": ["C03_wealth_follows_ledger"], "note": "same conditions as C02"},
 {"property": "C04", "status": "proved", "theorems": ["C04_resting_orders_bounded", "C04_book_assertions_hold"], "note": "at most 10000 open orders configured; above that see C45"},
 {"property": "C05", "status": "proved", "theorems": ["C05_ids_increase"], "note": "at most 10000 open orders configured"},
 {"property": "C06", "status": "proved", "theorems": ["C06_quantity_conserved"], "note": "at most 10000 open orders configured"},
 {"property": "C07", "status": "proved", "theorems": ["C07_finished_never_back"], "note": "at most 10000 open orders configured; a cancel may instead panic on its margin assertion, see C15"},
 {"property": "C08", "status": "proved", "theorems": ["C08_fills_exact", "C08_fill_assertions"], "note": "the average price of a partially filled report may drift from the limit price by truncation; the account is charged the limit price"},
 {"property": "C09", "status": "proved", "theorems": ["C09_quotes_never_touch_orders"], "note": ""},
 {"property": "C10", "status": "proved", "theorems": ["C10_accepted_rests", "C10_verdict"], "note": "Acceptance puts exactly the fresh order at the end of the book; the complete decision table is limit_verdict."},
 {"property": "C100", "status": "proved", "theorems": ["C100_errors", "C100_market_order", "C100_unknown_refuted"], "note": "True except for OrderIdNotFound, whose text leaves out the id (C100_unknown_refuted). How decimals and user order ids are printed are parameters with the stated hypothesis; the limit price and the quote put into the text are parameters of the text, not part of the modelled error value."},
 {"property": "C101", "status": "proved", "theorems": ["C101_candle", "C101_silent", "C101_trade_refuted", "C101_crash_refuted"], "note": "True unless the fills of the first delivery make the position due for liquidation (C101_crash_refuted). Market data of any kind that has filled nothing can be repeated without effect (C101_silent). Not true for trades that fill (C101_trade_refuted). The account tracker is not part of the comparison."},
 {"property": "C102", "status": "proved", "theorems": ["C102_same", "C102_lost", "C102_overtaken_refuted", "C102_crumb_refuted", "C102_tied_refuted"], "note": "True if what is left of the order could be sent as a new order (C102_same); otherwise the order is lost (C102_lost), for example when the quote has moved past it (C102_overtaken_refuted) or less than the smallest quantity is left (C102_crumb_refuted). The wallet must not be negative, the reserved order margin must be up to date, and there must be no position, no two orders at one price or no rounding; otherwise the amendment can panic (C102_tied_refuted)."},
 {"property": "C103", "status": "proved", "theorems": ["C103_left", "C103_bids", "C103_offers"], "note": "Both updates must be accepted, that is neither panics nor liquidates. \"Further\" compares quotes with anything, trades with trades, candles and smart candles, smart candles with candles and smart candles, and candles with candles (SpecBroad.v)."},
 {"property": "C104", "status": "proved", "theorems": ["C104_same", "C104_margin_refuted", "C104_after_refuted"], "note": "All four calls must be accepted. Answers, fill, money, position, position margin and remaining orders are the same, and so is the sum of wallet and order margin (C104_same); the split of that sum is not (C104_margin_refuted), and the later cancel can panic (C104_after_refuted)."},
 {"property": "C105", "status": "proved", "theorems": ["C105_earlier", "C105_later", "C105_filled_refuted", "C105_liquidated_refuted"], "note": "Moving the cancel before an update of any kind that filled nothing (C105_earlier), and behind a quote (C105_later). Not true if the update fills the order (C105_filled_refuted) or liquidates: the later cancel then panics (C105_liquidated_refuted). The account tracker is not part of the comparison."},
 {"property": "C106", "status": "proved", "theorems": ["C106_same", "C106_margin_refuted", "C106_money_refuted"], "note": "All four calls must be accepted; whether they are can depend on the order (C106_money_refuted). Fill, money, position, position margin, book and the sum of wallet and order margin are the same (C106_same); the split of that sum is not (C106_margin_refuted)."},
 {"property": "C107", "status": "proved", "theorems": ["C107_twice", "C107_twice_refuted"], "note": "Refuted for orders with fills: the new order forgets them, so the second amendment raises the quantity by them (C107_twice gives the exact quantities, C107_twice_refuted a history that buys three contracts with an order for two). True for orders without fills, by C107_twice. Both amendments must be accepted."},
 {"property": "C11", "status": "proved", "theorems": ["C11_cancel_exact", "C11_errors"], "note": "Rejected orders consume ids too, so an id that was never returned but is below the counter is also reported as no longer active."},
 {"property": "C12", "status": "proved", "theorems": ["C12_rejected_inert", "C12_rejected_quiet"], "note": "Book, account, position and market unchanged; statistics change in the submission counters only."},
 {"property": "C13", "status": "proved", "theorems": ["C13_round_trip"], "note": "The cancel is proved to succeed (no panic) from synchronised states."},
 {"property": "C14", "status": "proved", "theorems": ["C14_amend_exact", "C14_amend_outcome", "C14_all_or_nothing_refuted"], "note": "The last part of the property is false: a rejected amend loses the original order (proved for every rejected amend, with a concrete witness)."},
 {"property": "C15", "status": "proved", "theorems": ["C15_reserved_margin_bounds", "C15_entry_keeps_margin", "C15_calm_history_keeps_margin", "C15_debug_checks_margin", "C15_reserved_margin_refuted"], "note": "false as stated: a market order or liquidation next to resting orders leaves the reserved margin stale; proved for order entry and for calm histories"},
 {"property": "C16", "status": "proved", "theorems": ["C16_margin_is_requirement", "C16_margin_of_some_arrangement", "C16_order_independent", "C16_adding_never_lowers", "C16_removing_never_raises", "C16_order_dependence_refuted", "C16_removal_raises_refuted"], "note": "order independence and monotonicity under removal hold without hedged price ties or without rounding and are refuted otherwise"},
 {"property": "C17", "status": "proved", "theorems": ["C17_filled_at_quote", "C17_rejected"], "note": ""},
 {"property": "C18", "status": "proved", "theorems": ["C18_opening_funded", "C18_fee_nonneg", "C18_flip_refuted"], "note": "Proved for opening and adding. The part about flips is false: refuted by a concrete history."},
 {"property": "C19", "status": "proved", "theorems": ["C19_reducing_admitted"], "note": ""},
 {"property": "C20", "status": "proved", "theorems": ["C20_wallet_guarded", "C20_never_negative_refuted", "C18_flip_refuted"], "note": "False as stated: refuted by a gap liquidation and by a flip. Proved that nothing but a liquidation or a market order against the position can make the wallet negative (non-negative taker fee)."},
 {"property": "C21", "status": "proved", "theorems": ["C21_liquidation_exact", "C21_long_threshold"], "note": "the threshold of a long is truncated to the last decimal place; a liquidation that cannot be booked panics, see C41"},
 {"property": "C22", "status": "proved", "theorems": ["C22_linear", "C22_inverse", "C22_inverse_refuted"], "note": "Linear: proved up to two rounding units plus the rounding of the liquidation price (exact bound of two units when that price is not rounded). Inverse: proved for shorts and for longs with mm <= imr/(1+imr); refuted for other longs."},
 {"property": "C23", "status": "proved", "theorems": ["C23_updates_exact"], "note": "at most 10000 open orders configured"},
 {"property": "C24", "status": "proved", "theorems": ["C24_fees_accrue", "C24_fees_paid_never_decrease"], "note": ""},
 {"property": "C25", "status": "proved", "theorems": ["C25_rebates_credited_refuted"], "note": "the property is false of the code; the theorem is a counterexample"},
 {"property": "C26", "status": "proved", "theorems": ["C26_entry_between", "C26_market_adds", "C26_between_refuted", "C26_C27_inverse_refuted"], "note": "False as stated because of truncation and, for inverse contracts, the arithmetic mean: refuted by concrete histories. Proved with rounding bounds, and exactly when the products are exact."},
 {"property": "C27", "status": "proved", "theorems": ["C27_margin_posted", "C27_margin_drift", "C27_margin_exact", "C27_flat_debug", "C27_flat_refuted", "C26_C27_inverse_refuted"], "note": "False as stated: refuted by truncation (release build leaves margin posted when flat) and for inverse contracts. Proved: margin equals the margin posted by the fills; linear: imr x cost up to a stated rounding allowance, exact without rounding; zero when flat in debug builds."},
 {"property": "C28", "status": "proved", "theorems": ["C28_smart_candle_exact"], "note": ""},
 {"property": "C29", "status": "proved", "theorems": ["C29_smart_candle_sequential"], "note": ""},
 {"property": "C30", "status": "proved", "theorems": ["C30_step", "C30_samples", "C30_spaced", "C30_bound", "C30_exact"], "note": "Holds as stated. After a gap longer than one interval the trigger catches up one interval per update, so samples may lag the clock."},
 {"property": "C31", "status": "proved", "theorems": ["C31_statistics", "C31_grow"], "note": "C31_statistics is for histories without a direct check_active_orders call (its fills are reported only by the next update). Filled volume is counted even for liquidations."},
 {"property": "C32", "status": "proved", "theorems": ["C32_leverage_exact", "C32_contract_exact", "C32_config_exact", "C32_margins_in_range", "C32_zero_margin_rate_refuted"], "note": "initial margin > 0 needs leverage <= decimal scale, refuted otherwise"},
 {"property": "C33", "status": "proved", "theorems": ["C33_quantity_filter", "C33_price_filter", "C33_market_data", "C33_quantity_filter_new", "C33_price_filter_new", "C33_zero_tick_reported", "C33_zero_tick_refuted"], "note": "the zero tick clause is false of the code when a minimum is given"},
 {"property": "C34", "status": "proved", "theorems": ["C34_resting_orders_respect_filters"], "note": "at most 10000 open orders configured"},
 {"property": "C35", "status": "proved", "theorems": ["C35_market_state_mirrors", "C35_orders_keep_market"], "note": "at most 10000 open orders configured"},
 {"property": "C36", "status": "proved", "theorems": ["C36_pnl_laws", "C36_pnl_monotone", "C36_marked"], "note": ""},
 {"property": "C37", "status": "proved", "theorems": ["C37_builds_agree", "C37_builds_differ"], "note": "Builds differ only where a debug assertion fires; unbounded numbers; overflow in the two builds is C62 and C70."},
 {"property": "C38", "status": "proved", "theorems": ["C38_tracker_inert"], "note": ""},
 {"property": "C39", "status": "proved", "theorems": ["C39_entry_panics", "C39_submission_total", "C39_entry_total", "C39_order_entry_refuted"], "note": "false as stated; the possible panics are listed exactly, each is witnessed, and absence is proved while the reserved margin is in sync"},
 {"property": "C40", "status": "proved", "theorems": ["C40_panics_listed", "C40_list_tight", "C40_other_assertions_hold", "C40_quotes_total", "C40_idle_updates_total", "C40_margin_assertions_hold", "C40_market_updates_refuted"], "note": "false as stated; the assertions that can fire are listed exactly and witnessed, all others never fire"},
 {"property": "C41", "status": "proved", "theorems": ["C41_liquidation_completes", "C41_liquidation_blocked", "C41_liquidation_refuted"], "note": "false as stated; the exact condition for success is proved and a position above the largest order quantity panics"},
 {"property": "C42", "status": "proved", "theorems": ["C42_order_entry_keeps_totals"], "note": ""},
 {"property": "C43", "status": "proved", "theorems": ["C43_trade_fills", "C43_trade_overfill_refuted"], "note": "false as stated; the exact total is proved"},
 {"property": "C44", "status": "proved", "theorems": ["C44_mirror"], "note": ""},
 {"property": "C45", "status": "proved", "theorems": ["C45_limit_exact", "C45_limit_refuted"], "note": "holds up to 10000, refuted for every larger configured value"},
 {"property": "C46", "status": "proved", "theorems": ["C46_equity_marked", "C46_no_money_from_nothing", "C46_pump_refuted"], "note": "Holds up to an explicit rounding allowance and exactly when nothing is rounded; refuted without the allowance (round trips at constant quotes make money out of the truncated entry price)."},
 {"property": "C47", "status": "proved", "theorems": ["C47_inverse_average_one_sided", "C47_inverse_profit_refuted"], "note": "False: the arithmetic mean of prices understates the entry value of inverse positions (one-sided, proved in general); witness history overpays a short by 50 %."},
 {"property": "C48", "status": "proved", "theorems": ["C48_fates", "C48_once", "C48_counters", "C48_ratios"], "note": "Histories without direct check_active_orders calls."},
 {"property": "C49", "status": "proved", "theorems": ["C49_healthy_after_quiet_update", "C49_unhealthy_after_fill_refuted", "C49_opened_due", "C49_same_quote_liquidates_refuted"], "note": "Proved for updates without fills and characterised for opening market orders; refuted with fills and wide spreads (findings)."},
 {"property": "C50", "status": "proved", "theorems": ["C50_close_realises"], "note": ""},
 {"property": "C51", "status": "proved", "theorems": ["C51_trades", "C51_reordered", "C51_divided", "C51_candle"], "note": "About order remainders and position quantity; when all updates are accepted."},
 {"property": "C52", "status": "proved", "theorems": ["C52_memory", "C52_rpnl", "C52_rpnl_step", "C52_rpnl_start_refuted", "C52_trading_days", "C52_trading_days_exact", "C52_trading_days_refuted", "C52_hold", "C52_hold_refuted", "C52_volume_ratio", "C52_new"], "note": "Integer part. Refuted for a fresh tracker and for times that go back (findings). The f32 ratios are C77 and C79."},
 {"property": "C53", "status": "proved", "theorems": ["C53_untracked_run", "C53_untracked_init"], "note": "The exchange instantiated with NoAccountTracker is a second model file (Untracked.v)."},
 {"property": "C54", "status": "proved", "theorems": ["C54_load_exact", "C54_loaded_rows", "C54_sells_refuted", "C54_sell_panics_refuted", "C54_candle_refuted", "C54_size", "C54_net_volume", "C54_loaded_sizes_refuted"], "note": "Proved for purchases and for trades with positive quantity. False for loaded sells, refuted for every file: their quantity is negative, which makes the exchange panic and makes them look like purchases to the aggregation library (finding 28)."},
 {"property": "C55", "status": "proved", "theorems": ["C55_quantize", "C55_quantize_fixed", "C55_quantized_order", "C55_convert_back", "C55_convert_exact", "C55_convert_add", "C55_convert_odd", "C55_price_recovered", "C55_signs", "C55_new", "C55_new_value", "C55_new_panics", "C55_price_paid"], "note": "Findings 29 and 30: rounded quantities need not pass the quantity filter; the recovered inverse price is zero when the cost truncates to zero."},
 {"property": "C56", "status": "proved", "theorems": ["C56_defined", "C56_mean", "C56_spread", "C56_shape", "C56_affine", "C56_order"], "note": "For exact rational arithmetic; the functions on f32 and f64 are C77. The standard deviation is represented by its square."},
 {"property": "C57", "status": "proved", "theorems": ["C57_more_money_same_history", "C57_more_money_same_call", "C57_more_money_refuses_less", "C57_more_money_panics", "C57_more_money_new_panics"], "note": "Simulation between two executions of the model (ViewProof.v); the account tracker is not compared."},
 {"property": "C58", "status": "proved", "theorems": ["C58_user_ids_opaque", "C58_user_ids_opaque_state"], "note": "Same simulation with renamed user order ids; the account tracker is not compared."},
 {"property": "C59", "status": "proved", "theorems": ["C59_times_do_not_matter", "C59_times_do_not_matter_state"], "note": "Same simulation with all timestamps forgotten; the tracker and its sampling trigger, which do depend on times (C30), are not compared."},
 {"property": "C60", "status": "proved", "theorems": ["C60_reference_history", "C60_reference_call", "C60_reference_wallet"], "note": "Full functional specification of non-panicking calls: `m_call` in SpecMachine.v."},
 {"property": "C61", "status": "proved", "theorems": ["C61_panics_exactly", "C61_returns_exactly", "C61_exact_history", "C61_same_future"], "note": "With C60 a complete specification of the exchange (tracker apart). `m_crash` in SpecCrash.v is the panic condition in debug and release builds. Unbounded numbers; which numbers have to fit is C69."},
 {"property": "C62", "status": "proved", "theorems": ["C62_agreement", "C62_call_agreement", "C62_wider_type", "C62_totals_fit", "C62_state_fits"], "note": "Fixed.v repeats every function of the exchange with checked integers. Debug build; what a release build does after an overflow is C70."},
 {"property": "C63", "status": "proved", "theorems": ["C63_unlimited_use_refuted", "C63_totals_drift"], "note": "The statement is false; the theorems show the drift and, for every width, an overflowing history. Finding 32."},
 {"property": "C64", "status": "proved", "theorems": ["C64_no_overflow", "C64_everyday_i64"], "note": "The limit counts every submission of a limit order and every amendment, because reserved margin is booked again each time (C63). For inverse contracts the weight assumes prices down to one unit of the last decimal, so the limit is loose there."},
 {"property": "C65", "status": "proved", "theorems": ["C65_cash_never_panics", "C65_cash_debug", "C65_debug_refuted", "C65_maintenance_needed", "C65_leverage_needed", "C65_cover_needed", "C65_fees_needed", "C65_price_needed"], "note": "Release builds: no panic at all. Debug builds: one assertion can fire and does (finding). The rules refer to the reference machine of C60, which equals the exchange on every history."},
 {"property": "C66", "status": "proved", "theorems": ["C66_original_unaffected", "C66_room", "C66_copy_release", "C66_copy_returns", "C66_copy_bounded", "C66_copy_refuses", "C66_copy_debug", "C66_copy_debug_exact", "C66_interchangeable_refuted"], "note": "Assumes that Vec::clone allocates exactly its length and Vec::push grows as in the standard library. The last theorem refutes interchangeability; a finding. In a debug build C66_copy_debug_exact says at which market data the copy panics."},
 {"property": "C67", "status": "proved", "theorems": ["C67_default_exactly", "C67_default_small", "C67_default_none", "C67_default_price", "C67_default_quantity", "C67_default_valid", "C67_mock_valid", "C67_mock_linear", "C67_mock_tracked", "C67_mock_inverse", "C67_mock_safe_refuted"], "note": "Finding 35: unusable below four decimals. The exchange for tests panics when an order that survived a liquidation is cancelled."},
 {"property": "C68", "status": "proved", "theorems": ["C68_same_functions", "C68_release_agreement", "C68_balances_exact", "C68_release_outlives", "C68_unlimited_use", "C68_state_fits"], "note": "Wrapped.v: the exchange over a ledger parameter; the wrapping ledger stops only when a balance (not a total) leaves the type. Quantities other than ledger totals are still checked, so an overflow elsewhere is outside the claim."},
 {"property": "C69", "status": "proved", "theorems": ["C69_history", "C69_call", "C69_overflow_iff", "C69_width", "C69_arithmetic", "C69_booking", "C69_margin", "C69_debug_suffices", "C69_release_suffices_refuted"], "note": "n_play (SpecNeeds.v) lists the numbers; the counters the tracker leaves unchanged are listed again at each call of the tracker."},
 {"property": "C70", "status": "proved", "theorems": ["C70_checked_same", "C70_wrapped_same", "C70_bounded", "C70_machine_integers", "C70_double_entry", "C70_resting_orders", "C70_unfunded_check", "C70_funded_positions_refuted", "C70_positive_positions_refuted", "C70_reserved_orders_refuted"], "note": "Model: Release.v, the exchange with wrapping sums and counters; Overflow there is the panic of a product, quotient or remainder. The three _refuted theorems are findings 36 to 38."},
 {"property": "C71", "status": "proved", "theorems": ["C71_own_types", "C71_ordinary_history", "C71_update", "C71_check", "C71_answers", "C71_calls", "C71_books"], "note": "Implementations are modelled as functions that return or panic; interior mutability and impure implementations are not covered."},
 {"property": "C72", "status": "proved", "theorems": ["C72_call", "C72_history", "C72_panics", "C72_full_tracker", "C72_full_record", "C72_no_tracker"], "note": "Exchange with a tracker of any type as a second component; equal to the exchange without one plus a replay of an explicit event list."},
 {"property": "C73", "status": "proved", "theorems": ["C73_taker_never_panics", "C73_taker_debug", "C73_debug_refuted", "C73_round_trips", "C73_one_way_needed", "C73_closable_needed", "C73_solvent_needed", "C73_heavy_needed", "C73_whole_needed", "C73_quotes_needed", "C73_market_needed"], "note": "Positive panic-freedom result for leveraged accounts; every rule shown to be needed by a history that breaks it alone and panics."},
 {"property": "C74", "status": "proved", "theorems": ["C74_lawful_same", "C74_getters", "C74_in_memory_lawful", "C74_recorded", "C74_in_order", "C74_size", "C74_only_decides", "C74_market_error", "C74_limit_error", "C74_cancel_error", "C74_refusing", "C74_mock"], "note": "Model Ledger.v, with the accounting as a record of three functions that return, return an error or panic; spec SpecLedger.v."},
 {"property": "C75", "status": "proved", "theorems": ["C75_lower_fees_same_history", "C75_lower_fees_same_call", "C75_lower_fees_refuse_less", "C75_lower_fees_panics", "C75_lower_fees_new_panics", "C75_refusals_matter_refuted"], "note": "Proved on the reference machine of C60 and C61 and carried over to the exchange. The refuted statement is the one without the condition on refusals."},
 {"property": "C76", "status": "proved", "theorems": ["C76_round_trip", "C76_close", "C76_nearest", "C76_in_range", "C76_out_of_range", "C76_errors", "C76_saturates", "C76_wide_refuted", "C76_nan", "C76_infinite", "C76_rounding_lands", "C76_rounding_exact", "C76_rounding_error", "C76_rounding_nearest"], "note": "Doubles are rational numbers, infinities and NaN, with rounding to nearest even defined from scratch and proved to be that. The two zeros are one. 10^D is exact for D up to 22."},
 {"property": "C77", "status": "proved", "theorems": ["C77_ratios", "C77_ratios_exact", "C77_ratio_one_refuted", "C77_mean", "C77_variance", "C77_variance_sign", "C77_std_dev", "C77_power", "C77_kurtosis_floor", "C77_grid_mean", "C77_grid_constant", "C77_grid_spread", "C77_no_spread", "C77_mirror", "C77_empty", "C77_nan", "C77_mean_refuted", "C77_constant_refuted", "C77_constant_kurtosis_refuted", "C77_kurtosis_refuted", "C77_undefined_refuted", "C77_order_refuted"], "note": "Floating point numbers as in C76, for f32 and f64. powi multiplies by squaring; powf(1.5) is taken to be correctly rounded and nothing but symmetry and NaN is claimed of the skew. The model reproduces the values in the repository's test of skew and kurtosis to the last bit. The refuted statements are those of C56 for exact numbers."},
 {"property": "C78", "status": "proved", "theorems": ["C78_statistics_exact", "C78_helpers_exact", "C78_rpnl", "C78_days", "C78_ratio", "C78_small_turnover", "C78_load", "C78_turnover_refuted", "C78_hold_refuted", "C78_days_refuted"], "note": "Exact overflow conditions of the derived numbers; the last three are findings: what may still overflow."},
 {"property": "C79", "status": "proved", "theorems": ["C79_fed", "C79_history", "C79_same_trading", "C79_same_panics", "C79_drawdowns", "C79_sharpe", "C79_sortino", "C79_no_loss", "C79_kelly", "C79_display", "C79_higher_mean", "C79_volume_ratio", "C79_d_ratio_none", "C79_d_ratio_outperforms", "C79_d_ratio_refuted", "C79_d_ratio_blind_refuted"], "note": "The crates sliding_features and quantogram and the conversion of decimals to f64 are a parameter of the theorems, not modelled. That a discriminant ratio above 1 means a higher return is refuted by a history, and that every lead shows is refuted by numbers."},
 {"property": "C80", "status": "proved", "theorems": ["C80_get", "C80_insert", "C80_remove", "C80_update", "C80_om_remove", "C80_sort", "C80_offset", "C80_transaction", "C80_transfer", "C80_new_position", "C80_increase", "C80_decrease", "C80_remaining", "C80_total", "C80_fill", "C80_tracker", "C80_volume_ratio"], "note": "Function by function, for arbitrary arguments; includes books with duplicate identifiers, overdrawn accounts and unbalanced books."},
 {"property": "C81", "status": "proved", "theorems": ["C81_same", "C81_names", "C81_balance", "C81_transaction", "C81_transfer", "C81_trace", "C81_sum", "C81_order"], "note": "Justifies the enumeration of accounts in Accounting.v; numbers are unbounded naturals, of which machine words are some."},
 {"property": "C82", "status": "proved", "theorems": ["C82_cancel_all", "C82_any_order", "C82_returns", "C82_close", "C82_wind_down", "C82_idle", "C82_oldest_first_refuted", "C82_close_first_refuted", "C82_all_in_wallet_refuted"], "note": "Cancellations return when made from the end of the book, given that the reserved margin is right; other orders of cancelling are covered by C82_cancel_all and C82_any_order under the hypothesis that they return."},
 {"property": "C83", "status": "proved", "theorems": ["C83_no_profit", "C83_fractions_refuted", "C83_fee_pieces", "C83_free", "C83_fees_avoided"], "note": "C83_no_profit needs whole contracts; C83_fractions_refuted shows that it fails without."},
 {"property": "C84", "status": "proved", "theorems": ["C84_setup", "C84_calls", "C84_finished", "C84_order", "C84_never_trades", "C84_endings", "C84_one_sided", "C84_flip_refuted", "C84_liquidation_debug_refuted", "C84_broke_refuted", "C84_high_prices_refuted"], "note": "The random coins are a function of the index, the prices a list; reading the file is modelled in Data.v. Unbounded numbers; the program uses i64."},
 {"property": "C85", "status": "proved", "theorems": ["C85_only_margins", "C85_accepts", "C85_liquidates", "C85_accepts_refuted", "C85_maintenance", "C85_maintenance_refuted"], "note": "That both calls return is a hypothesis: a lower margin can round to zero and panic (C61 says when). A larger maintenance margin alone changes nothing before a liquidation and liquidates later, not sooner (C85_maintenance_refuted)."},
 {"property": "C86", "status": "proved", "theorems": ["C86_skip", "C86_history", "C86_samples_refuted", "C86_trade_refuted", "C86_repeat", "C86_candle_refuted"], "note": "The state compared is account, orders, market and ids (machine_of) and the counters; samples and first/last times of the tracker are not claimed."},
 {"property": "C87", "status": "proved", "theorems": ["C87_setups", "C87_limit", "C87_check", "C87_market", "C87_replay", "C87_replay_refuted", "C87_candles"], "note": "Model: Bench.v. Unbounded numbers; the recorded trades are a parameter; decimal_comparison.rs does not use the exchange and is not modelled."},
 {"property": "C88", "status": "proved", "theorems": ["C88_exactly", "C88_result", "C88_any_order", "C88_fewer", "C88_any_order_refuted", "C88_cancel", "C88_undone", "C88_undone_refuted"], "note": "Exact criterion for any number of orders. The claims about the order of sending and of cancelling need a flat position, no ties or no rounding; without them they are false (C88_any_order_refuted, C88_undone_refuted)."},
 {"property": "C89", "status": "proved", "theorems": ["C89_same", "C89_panics", "C89_wider", "C89_more_refuted"], "note": "Relational: two configurations that differ in limits only. The natural stronger claim, that looser limits never refuse more, is false (C89_more_refuted)."},
 {"property": "C90", "status": "proved", "theorems": ["C90_same", "C90_adding", "C90_adding_exactly", "C90_adding_enough", "C90_whole_refuted", "C90_reducing_exactly", "C90_closing_refuted", "C90_margin_left_refuted", "C90_flip_refuted"], "note": "True as stated. The exact conditions for parts that add and parts that reduce are C90_adding_exactly and C90_reducing_exactly. What one would also expect is false: the parts can be accepted although the whole is refused, closing in parts can panic or leave margin behind, and turning a position round in two orders is decided differently (refuted theorems)."},
 {"property": "C91", "status": "proved", "theorems": ["C91_margin", "C91_accepted", "C91_whole_refuted", "C91_filled", "C91_same_refuted"], "note": "True as stated. What one would also expect is false: the parts can be accepted although the whole is refused, and the same trade leaves a larger position with the parts (refuted theorems)."},
 {"property": "C92", "status": "proved", "theorems": ["C92_quantities", "C92_same", "C92_profit_refuted", "C92_panic_refuted"], "note": "True as stated, when the same calls are accepted with and without the order. Without the condition that orders are filled one at a time, profit and entry price can differ, and a debug build can panic in one case only (refuted theorems)."},
 {"property": "C93", "status": "proved", "theorems": ["C93_market", "C93_limit", "C93_limit_refuted"], "note": "True for market orders, and for limit orders under the condition stated. Without it, cancelling a bid can make an offer unaffordable although the wallet grew (refuted theorem)."},
 {"property": "C94", "status": "proved", "theorems": ["C94_opening_and_reducing", "C94_smaller_value", "C94_accepted", "C94_panic_refuted", "C94_accepted_refuted", "C94_adding_refuted", "C94_adding", "C94_turning_refuted", "C94_turning"], "note": "True as stated. On the other side (selling linear, buying inverse contracts) adding to a position or turning it round at a better price can cost money (at most one unit when turning round; the theorem on adding to a linear position has the bound), and the better price can be refused; a lower price can also make a small order panic because its margin rounds to zero (refuted theorems). For inverse contracts the second theorem asks that the average entry price at the worse price has not been rounded to zero."},
 {"property": "C95", "status": "proved", "theorems": ["C95_fills", "C95_money", "C95_missed_refuted"], "note": "True as stated. Without the condition on the quantities the second part is false: the better price can be missed (refuted theorem)."},
 {"property": "C96", "status": "proved", "theorems": ["C96_same", "C96_one_trade", "C96_candle", "C96_candles", "C96_two_sides_refuted"], "note": "True as stated. With orders on both sides a candle is not its quote followed by two large trades: the same orders are filled in another order, and entry price and balance differ (refuted theorem)."},
 {"property": "C97", "status": "proved", "theorems": ["C97_updates", "C97_market", "C97_position", "C97_inner", "C97_balances", "C97_pending", "C97_filled", "C97_filter", "C97_left_out_refuted"], "note": "True as stated. The time of quotes, trades and candles, the fees of a position and the entry price of its inner record are not printed (refuted theorem). How const_decimal prints a number is a parameter with the stated hypothesis."},
 {"property": "C98", "status": "proved", "theorems": ["C98_alike", "C98_flat", "C98_flat_refuted"], "note": "The first sentence is true as stated. The second is true in debug builds only (C98_flat): in release builds rounding can leave position margin behind, and turning a later position around then panics (C98_flat_refuted)."},
 {"property": "C99", "status": "proved", "theorems": ["C99_ids", "C99_restart", "C99_restart_refuted"], "note": "The first sentence is true as stated. The second is true in debug builds (C99_restart); in release builds rounding can leave position margin behind, which a new exchange does not have (C99_restart_refuted)."}
]}
