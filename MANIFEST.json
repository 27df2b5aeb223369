{
 "claims": [
  {
   "property": "C01",
   "status": "proved",
   "theorems": [
    "C01_supplies_are_sums"
   ],
   "note": ""
  },
  {
   "property": "C02",
   "status": "proved",
   "theorems": [
    "C02_positions_positive",
    "C02_liabilities_mean_debt"
   ],
   "note": ""
  },
  {
   "property": "C03",
   "status": "proved",
   "theorems": [
    "C03_solvency",
    "C03_no_other_shortfall",
    "C03_burn_bounds_shortfall",
    "C03_burn_exact"
   ],
   "note": "Debt is counted rounded up to whole tokens; burned debt is the sum of the burn events, shown exact by C03_burn_exact."
  },
  {
   "property": "C04",
   "status": "proved",
   "theorems": [
    "C04_rates_never_decrease"
   ],
   "note": ""
  },
  {
   "property": "C05",
   "status": "proved",
   "theorems": [
    "C05_ir_mod_range"
   ],
   "note": ""
  },
  {
   "property": "C06",
   "status": "proved",
   "theorems": [
    "C06_no_extraction"
   ],
   "note": ""
  },
  {
   "property": "C07",
   "status": "proved",
   "theorems": [
    "C07_withdraw",
    "C07_repay",
    "C07_round_trip"
   ],
   "note": ""
  },
  {
   "property": "C08",
   "status": "proved",
   "theorems": [
    "C08_healthy_after_risk"
   ],
   "note": ""
  },
  {
   "property": "C09",
   "status": "proved",
   "theorems": [
    "C09_status_gates_requests",
    "C09_exits_ignore_status"
   ],
   "note": "C09_exits_ignore_status: same outcome (same return value and storage, or same error) under every status."
  },
  {
   "property": "C10",
   "status": "proved",
   "theorems": [
    "C10_position_count"
   ],
   "note": ""
  },
  {
   "property": "C11",
   "status": "proved",
   "theorems": [
    "C11_borrow_capped",
    "C11_restriction_needed"
   ],
   "note": "finding: the cap is only checked by the borrow request, not at the end of the submit"
  },
  {
   "property": "C12",
   "status": "proved",
   "theorems": [
    "C12_isolation"
   ],
   "note": ""
  },
  {
   "property": "C13",
   "status": "proved",
   "theorems": [
    "C13_plain_submit",
    "C13_paid_in"
   ],
   "note": ""
  },
  {
   "property": "C14",
   "status": "proved",
   "theorems": [
    "C14_interest_split",
    "C14_nothing_lost"
   ],
   "note": ""
  },
  {
   "property": "C15",
   "status": "proved",
   "theorems": [
    "C15_accrual_monotone",
    "C15_debt_rate_monotone"
   ],
   "note": ""
  },
  {
   "property": "C16",
   "status": "proved",
   "theorems": [
    "C16_liquidation_auction",
    "C67_liquidation_needs"
   ],
   "note": "non-negative oracle prices for the signs and the health-factor bounds"
  },
  {
   "property": "C17",
   "status": "proved",
   "theorems": [
    "C17_curve",
    "C17_waiting_never_hurts",
    "C17_liquidation_fill",
    "C17_bad_debt_fill",
    "C17_interest_fill",
    "C17_waiting_liquidation"
   ],
   "note": "curve, and every successful fill of each of the three kinds pays and charges exactly by it; C17_waiting_liquidation compares two executions"
  },
  {
   "property": "C18",
   "status": "proved",
   "theorems": [
    "C18_auctions_after_submit",
    "C18_fill_sequence",
    "C18_rounding"
   ],
   "note": ""
  },
  {
   "property": "C19",
   "status": "proved",
   "theorems": [
    "C19_percent_in_range",
    "C19_restriction_needed"
   ],
   "note": "finding: `amount as u64` wraps"
  },
  {
   "property": "C20",
   "status": "proved",
   "theorems": [
    "C20_fill_moves_exactly"
   ],
   "note": ""
  },
  {
   "property": "C21",
   "status": "proved",
   "theorems": [
    "C21_no_self_fill",
    "C21_no_fill_in_ledger_of_creation"
   ],
   "note": ""
  },
  {
   "property": "C22",
   "status": "proved",
   "theorems": [
    "C22_auction_ends"
   ],
   "note": ""
  },
  {
   "property": "C23",
   "status": "proved",
   "theorems": [
    "C23_bad_debt_exact"
   ],
   "note": ""
  },
  {
   "property": "C24",
   "status": "proved",
   "theorems": [
    "C24_creation",
    "C24_lot",
    "C24_fill"
   ],
   "note": ""
  },
  {
   "property": "C25",
   "status": "proved",
   "theorems": [
    "C25_creation",
    "C25_fill",
    "C25_credit_never_negative",
    "C25_restriction_needed",
    "C25_minimum_counts_duplicates"
   ],
   "note": "finding: the lot is fixed at creation but the credit is only accrued at the fill, at the take rate then in force"
  },
  {
   "property": "C26",
   "status": "proved",
   "theorems": [
    "C26_fill_possible",
    "C26_only_for_400_ledgers",
    "C26_stuck_after_400"
   ],
   "note": "finding: an interest auction left unfilled for 400 ledgers blocks interest auctions until its storage entry expires"
  },
  {
   "property": "C27",
   "status": "proved",
   "theorems": [
    "C27_bad_debt_possible",
    "C27_insolvent_liquidatable",
    "C27_restriction_needed"
   ],
   "note": "findings: dust collateral makes a debt neither liquidatable nor transferable to the backstop; price gaps where no liquidation percentage is accepted"
  },
  {
   "property": "C28",
   "status": "proved",
   "theorems": [
    "C28_reserve_changes_timelocked",
    "C28_configs_valid",
    "C28_index_and_decimals_fixed"
   ],
   "note": ""
  },
  {
   "property": "C29",
   "status": "proved",
   "theorems": [
    "C29_reserve_list_bijection",
    "C29_list_only_grows"
   ],
   "note": ""
  },
  {
   "property": "C30",
   "status": "proved",
   "theorems": [
    "C30_update_status",
    "C30_set_status",
    "C30_status_changes_only_by_status_calls",
    "C30_never_back_to_setup"
   ],
   "note": ""
  },
  {
   "property": "C31",
   "status": "proved",
   "theorems": [
    "C31_threshold_exact"
   ],
   "note": ""
  },
  {
   "property": "C32",
   "status": "proved",
   "theorems": [
    "C32_admin_settings"
   ],
   "note": ""
  },
  {
   "property": "C33",
   "status": "proved",
   "theorems": [
    "C33_claimed_at_most_gulped"
   ],
   "note": ""
  },
  {
   "property": "C34",
   "status": "proved",
   "theorems": [
    "C34_index_monotone",
    "C34_claim_exact",
    "C34_second_claim_zero",
    "C34_others_untouched"
   ],
   "note": ""
  },
  {
   "property": "C35",
   "status": "proved",
   "theorems": [
    "C35_emission_shares"
   ],
   "note": ""
  },
  {
   "property": "C36",
   "status": "proved",
   "theorems": [
    "C36_share_conservation",
    "C36_users_listable"
   ],
   "note": ""
  },
  {
   "property": "C37",
   "status": "proved",
   "theorems": [
    "C37_deposits_backed",
    "C37_nothing_recorded_before_init"
   ],
   "note": "for deployments whose backstop token is not BLND itself"
  },
  {
   "property": "C38",
   "status": "proved",
   "theorems": [
    "C38_21_day_lock",
    "C38_entries_expire_after_21_days",
    "C38_withdraw_takes_only_expired"
   ],
   "note": ""
  },
  {
   "property": "C39",
   "status": "proved",
   "theorems": [
    "C39_deposit_rounds_down",
    "C39_withdraw_rounds_down",
    "C39_donate",
    "C39_deposit_then_withdraw"
   ],
   "note": ""
  },
  {
   "property": "C40",
   "status": "proved",
   "theorems": [
    "C40_queue_bounded_and_ordered",
    "C40_dequeue_oldest_first"
   ],
   "note": ""
  },
  {
   "property": "C41",
   "status": "proved",
   "theorems": [
    "C41_only_the_pool_draws",
    "C41_other_pools_untouched"
   ],
   "note": ""
  },
  {
   "property": "C42",
   "status": "proved",
   "theorems": [
    "C42_owner_signs",
    "C42_total_decreases_only_by_withdraw",
    "C42_others_never_change_it"
   ],
   "note": ""
  },
  {
   "property": "C43",
   "status": "proved",
   "theorems": [
    "C43_allocates_at_most_emitted"
   ],
   "note": ""
  },
  {
   "property": "C44",
   "status": "proved",
   "theorems": [
    "C44_claimed_at_most_allocated",
    "C44_restriction_needed"
   ],
   "note": "finding: execute_claim credits shares to `to` without updating the emissions of `to`"
  },
  {
   "property": "C45",
   "status": "proved",
   "theorems": [
    "C45_dequeue_possible",
    "C45_restriction_needed"
   ],
   "note": "C45_restriction_needed shows that the restriction is needed (finding: update_emission_data divides by the unqueued shares)"
  },
  {
   "property": "C46",
   "status": "proved",
   "theorems": [
    "C46_no_duplicates_and_bounded",
    "C46_admission"
   ],
   "note": ""
  },
  {
   "property": "C47",
   "status": "proved",
   "theorems": [
    "C47_handover_conserved",
    "C47_handover_exact"
   ],
   "note": ""
  },
  {
   "property": "C48",
   "status": "proved",
   "theorems": [
    "C48_allocated_at_most_minted",
    "C48_restriction_needed"
   ],
   "note": "finding: a backstop swapped out and in again allocates BLND minted to the other backstop"
  },
  {
   "property": "C49",
   "status": "proved",
   "theorems": [
    "C49_one_blnd_per_second",
    "C49_paid_to_current_backstop"
   ],
   "note": ""
  },
  {
   "property": "C50",
   "status": "proved",
   "theorems": [
    "C50_swap_timelocked",
    "C50_cancel_only_if_smaller"
   ],
   "note": ""
  },
  {
   "property": "C51",
   "status": "proved",
   "theorems": [
    "C51_drop_at_most_once",
    "C51_drop_authorized_and_capped",
    "C51_total_drop_capped"
   ],
   "note": ""
  },
  {
   "property": "C52",
   "status": "proved",
   "theorems": [
    "C52_registry_exact",
    "C52_fresh_pool_safe",
    "C52_no_reinitialization",
    "C52_take_rate_bounded"
   ],
   "note": ""
  },
  {
   "property": "C53",
   "status": "proved",
   "theorems": [
    "C53_withdraw_possible"
   ],
   "note": ""
  },
  {
   "property": "C54",
   "status": "proved",
   "theorems": [
    "C54_queue_possible"
   ],
   "note": ""
  },
  {
   "property": "C55",
   "status": "proved",
   "theorems": [
    "C55_withdraw_possible",
    "C55_repay_possible",
    "C55_supply_possible"
   ],
   "note": ""
  },
  {
   "property": "C56",
   "status": "proved",
   "theorems": [
    "C56_interest_computable",
    "C56_overflow_locks",
    "C56_restriction_needed"
   ],
   "note": "C56_restriction_needed gives a reachable locked reserve (finding: u32 overflow in calc_accrual)"
  },
  {
   "property": "C57",
   "status": "proved",
   "theorems": [
    "C57_submit",
    "C57_liquidation",
    "C57_bad_debt",
    "C57_interest"
   ],
   "note": ""
  },
  {
   "property": "C58",
   "status": "proved",
   "theorems": [
    "C58_unchecked_is_safe"
   ],
   "note": ""
  },
  {
   "property": "C59",
   "status": "proved",
   "theorems": [
    "C59_interest_rate",
    "C59_rate_modifier",
    "C59_modifier_reset"
   ],
   "note": "the lower bound subtracts 1e-9 year: accruing every second loses up to 2.2% of the interest to the rounding of the elapsed time"
  },
  {
   "property": "C60",
   "status": "proved",
   "theorems": [
    "C60_borrow_possible",
    "C60_collateral_withdrawal_possible",
    "C60_collateral_supply_possible"
   ],
   "note": ""
  },
  {
   "property": "C61",
   "status": "proved",
   "theorems": [
    "C61_emitter_initialize",
    "C61_factory_initialize",
    "C61_backstop_initialize",
    "C61_pool_initialize",
    "C61_initialized_once"
   ],
   "note": ""
  },
  {
   "property": "C62",
   "status": "proved",
   "theorems": [
    "C62_set_admin",
    "C62_update_pool",
    "C62_queue_set_reserve",
    "C62_cancel_set_reserve",
    "C62_set_new_reserve",
    "C62_set_existing_reserve",
    "C62_set_status",
    "C62_update_status",
    "C62_set_emissions",
    "C62_deploy",
    "C62_queue_swap",
    "C62_cancel_swap",
    "C62_distribute",
    "C62_swap_backstop",
    "C62_add_reward"
   ],
   "note": "anybody can initialize a contract before its deployer does; the deployment scripts must do it in the deploying transaction"
  },
  {
   "property": "C63",
   "status": "proved",
   "theorems": [
    "C63_queue",
    "C63_dequeue",
    "C63_withdraw",
    "C63_deposit",
    "C63_distribute",
    "C63_blocked_until_withdrawal"
   ],
   "note": "finding: a pool of the reward zone with all shares queued blocks gulp_emissions for every pool"
  },
  {
   "property": "C64",
   "status": "proved",
   "theorems": [
    "C64_storage_untouched",
    "C64_backstop_untouched",
    "C64_no_interference"
   ],
   "note": "emission claims, gulp_emissions and fills of bad debt and interest auctions use holdings the backstop keeps for all pools together and are left out of the third theorem"
  },
  {
   "property": "C65",
   "status": "proved",
   "theorems": [
    "C65_fill_possible",
    "C65_fill_needs",
    "C65_restriction_needed"
   ],
   "note": ""
  },
  {
   "property": "C66",
   "status": "proved",
   "theorems": [
    "C66_fill_possible",
    "C66_fill_needs",
    "C66_no_tokens_no_fill",
    "C66_no_debt_no_fill",
    "C66_tokens_needed",
    "C66_debt_needed"
   ],
   "note": "findings: emptied backstops and burned debt leave auctions that block new ones"
  },
  {
   "property": "C67",
   "status": "proved",
   "theorems": [
    "C67_liquidation_auction",
    "C67_liquidation_needs",
    "C67_interest_auction",
    "C67_bad_debt_auction"
   ],
   "note": "exact (iff) under computability conditions; the necessity direction for liquidations needs only non-negative prices"
  },
  {
   "property": "C68",
   "status": "proved",
   "theorems": [
    "C68_penalty",
    "C68_fill_restores_health"
   ],
   "note": "the 200-ledger restriction is shown necessary by ex_C68_late"
  },
  {
   "property": "C69",
   "status": "proved",
   "theorems": [
    "C69_supply",
    "C69_wallets",
    "C69_wallets_forever"
   ],
   "note": "the allowance condition is shown necessary by ex_C69_allowance"
  },
  {
   "property": "C70",
   "status": "proved",
   "theorems": [
    "C70_batching"
   ],
   "note": "ex_C70_batch_only and ex_C70_parts_only show that acceptance does depend on the batching"
  },
  {
   "property": "C71",
   "status": "proved",
   "theorems": [
    "C71_no_profit_in_a_ledger"
   ],
   "note": ""
  },
  {
   "property": "C72",
   "status": "proved",
   "theorems": [
    "C72_rates_of_a_ledger",
    "C72_order_does_not_matter"
   ],
   "note": ""
  },
  {
   "property": "C73",
   "status": "proved",
   "theorems": [
    "C73_earned_is_covered",
    "C73_allowance_ledger",
    "C73_allowance_covers",
    "C73_backstop_holds_it",
    "C73_claim_possible",
    "C73_expired_allowance",
    "C73_lost_allowance"
   ],
   "note": ""
  },
  {
   "property": "C74",
   "status": "proved",
   "theorems": [
    "C74_administration_touches_no_funds"
   ],
   "note": ""
  },
  {
   "property": "C75",
   "status": "proved",
   "theorems": [
    "C75_time_pays_in_proportion",
    "C75_emissions_in_proportion",
    "C75_small_ticks_pay_nobody",
    "C75_pokes_stop_the_stream"
   ],
   "note": "finding: frequent calls make the emission index lose the stream by rounding"
  },
  {
   "property": "C76",
   "status": "proved",
   "theorems": [
    "C76_others_untouched",
    "C76_claim_exact",
    "C76_credited_claim"
   ],
   "note": "finding: a claim deposited for somebody else earns retroactively (see also C44)"
  },
  {
   "property": "C77",
   "status": "proved",
   "theorems": [
    "C77_backstop_emissions_in_proportion",
    "C77_small_ticks_pay_nobody",
    "C77_pokes_stop_the_stream"
   ],
   "note": "finding: frequent calls make the emission index lose the stream by rounding"
  },
  {
   "property": "C78",
   "status": "proved",
   "theorems": [
    "C78_claim_credits",
    "C78_earned_is_covered",
    "C78_earned_can_be_claimed",
    "C78_named_twice_is_lost"
   ],
   "note": "finding: emissions of a pool named twice in one claim are lost"
  },
  {
   "property": "C79",
   "status": "proved",
   "theorems": [
    "C79_distribution_split",
    "C79_shares_complete",
    "C79_share_proportional",
    "C79_all_handed_out",
    "C79_pool_split",
    "C79_unconfigured_lost",
    "C79_pool_parts_bounded"
   ],
   "note": "finding: emissions collected before the pool has an emissions configuration are lost"
  },
  {
   "property": "C80",
   "status": "proved",
   "theorems": [
    "C80_step",
    "C80_accounts_stay",
    "C80_savings_never_shrink",
    "C80_open_auction_takes_savings"
   ],
   "note": "finding: a stale liquidation auction still takes the collateral of an account that has repaid all its debt"
  },
  {
   "property": "C81",
   "status": "proved",
   "theorems": [
    "C81_step",
    "C81_deposits_lose_only_to_bad_debt",
    "C81_bad_debt_takes_deposits"
   ],
   "note": "the restriction to histories without a bad debt fill is shown to be necessary"
  },
  {
   "property": "C82",
   "status": "proved",
   "theorems": [
    "C82_user_balances_replay",
    "C82_pool_balances_replay",
    "C82_from_genesis",
    "C82_events_defined"
   ],
   "note": "events modelled in Events.v; C82_events_defined shows the event function is total on successful calls"
  },
  {
   "property": "C83",
   "status": "proved",
   "theorems": [
    "C83_book_replay",
    "C83_from_genesis",
    "C83_fill_events_overstate"
   ],
   "note": "finding: fill events carry the untruncated amount"
  },
  {
   "property": "C84",
   "status": "proved",
   "theorems": [
    "C84_tokens_follow_events"
   ],
   "note": ""
  },
  {
   "property": "C85",
   "status": "proved",
   "theorems": [
    "C85_value_conserved",
    "C85_value_conserved_history",
    "C85_no_more_lent_than_supplied"
   ],
   "note": ""
  },
  {
   "property": "C86",
   "status": "proved",
   "theorems": [
    "C86_no_early_expiry",
    "C86_interest_blocked_45_days",
    "C86_interest_unblocked",
    "C86_queued_change_stays_100_days",
    "C86_drop_list_stays_100_days"
   ],
   "note": ""
  },
  {
   "property": "C87",
   "status": "proved",
   "theorems": [
    "C87_only_deployed_pools",
    "C87_calls_fail"
   ],
   "note": ""
  },
  {
   "property": "C88",
   "status": "proved",
   "theorems": [
    "C88_blnd_follows_events",
    "C88_no_silent_payment",
    "C88_swap_pays_silently"
   ],
   "note": "Restriction necessary (finding): the emitter's last distribution to a backstop being replaced is published nowhere."
  },
  {
   "property": "C89",
   "status": "proved",
   "theorems": [
    "C89_configuration_replay",
    "C89_emission_shares_unpublished",
    "C89_first_settings_unpublished"
   ],
   "note": "Restriction necessary (findings): the shares a pool's admin gives its reserve tokens and the settings a pool starts with are published nowhere."
  },
  {
   "property": "C90",
   "status": "proved",
   "theorems": [
    "C90_roster_replay",
    "C90_zone_event_ambiguous"
   ],
   "note": "Restriction necessary (finding): without the ledger times the rw_zone event is ambiguous."
  },
  {
   "property": "C91",
   "status": "proved",
   "theorems": [
    "C91_what_endangers_an_account"
   ],
   "note": ""
  },
  {
   "property": "C92",
   "status": "proved",
   "theorems": [
    "C92_debt_growth",
    "C92_debt_growth_least",
    "C92_worst_rate"
   ],
   "note": ""
  },
  {
   "property": "C93",
   "status": "proved",
   "theorems": [
    "C93_silent_dtokens",
    "C93_silent_debt"
   ],
   "note": ""
  },
  {
   "property": "C94",
   "status": "proved",
   "theorems": [
    "C94_margin",
    "C94_rate_cap",
    "C94_time_margin"
   ],
   "note": ""
  },
  {
   "property": "C95",
   "status": "proved",
   "theorems": [
    "C95_no_liquidation_in_the_same_ledger"
   ],
   "note": ""
  },
  {
   "property": "C96",
   "status": "proved",
   "theorems": [
    "C96_small_interest_is_lost",
    "C96_starved"
   ],
   "note": ""
  },
  {
   "property": "C97",
   "status": "proved",
   "theorems": [
    "C97_rounding_cost",
    "C97_supply_credited",
    "C97_loan_charged"
   ],
   "note": ""
  }
 ]
}
