#!/usr/bin/env python3
"""Writes MANIFEST.json from the table below; a property without entry is listed as not yet proved (partial with no theorem)."""
import json
T = {
 "C01": ("proved", ["C01_supplies_are_sums"], ""),
 "C02": ("proved", ["C02_positions_positive","C02_liabilities_mean_debt"], ""),
 "C03": ("proved", ["C03_solvency","C03_no_other_shortfall","C03_burn_bounds_shortfall","C03_burn_exact"], "Debt is counted rounded up to whole tokens; burned debt is the sum of the burn events, shown exact by C03_burn_exact."),
 "C04": ("proved", ["C04_rates_never_decrease"], ""),
 "C05": ("proved", ["C05_ir_mod_range"], ""),
 "C06": ("proved", ["C06_no_extraction"], ""),
 "C07": ("proved", ["C07_withdraw","C07_repay","C07_round_trip"], ""),
 "C11": ("proved", ["C11_borrow_capped","C11_restriction_needed"], "finding: the cap is only checked by the borrow request, not at the end of the submit"),
 "C13": ("proved", ["C13_plain_submit","C13_paid_in"], ""),
 "C08": ("proved", ["C08_healthy_after_risk"], ""),
 "C09": ("proved", ["C09_status_gates_requests","C09_exits_ignore_status"], "C09_exits_ignore_status: same outcome (same return value and storage, or same error) under every status."),
 "C10": ("proved", ["C10_position_count"], ""),
 "C12": ("proved", ["C12_isolation"], ""),
 "C23": ("proved", ["C23_bad_debt_exact"], ""),
 "C14": ("proved", ["C14_interest_split","C14_nothing_lost"], ""),
 "C15": ("proved", ["C15_accrual_monotone","C15_debt_rate_monotone"], ""),
 "C24": ("proved", ["C24_creation","C24_lot","C24_fill"], ""),
 "C16": ("proved", ["C16_liquidation_auction","C67_liquidation_needs"], "non-negative oracle prices for the signs and the health-factor bounds"),
 "C17": ("proved", ["C17_curve","C17_waiting_never_hurts","C17_liquidation_fill","C17_bad_debt_fill","C17_interest_fill","C17_waiting_liquidation"], "curve, and every successful fill of each of the three kinds pays and charges exactly by it; C17_waiting_liquidation compares two executions"),
 "C18": ("proved", ["C18_auctions_after_submit","C18_fill_sequence","C18_rounding"], ""),
 "C19": ("proved", ["C19_percent_in_range","C19_restriction_needed"], "finding: `amount as u64` wraps"),
 "C20": ("proved", ["C20_fill_moves_exactly"], ""),
 "C21": ("proved", ["C21_no_self_fill","C21_no_fill_in_ledger_of_creation"], ""),
 "C22": ("proved", ["C22_auction_ends"], ""),
 "C25": ("proved", ["C25_creation","C25_fill","C25_credit_never_negative","C25_restriction_needed","C25_minimum_counts_duplicates"], "finding: the lot is fixed at creation but the credit is only accrued at the fill, at the take rate then in force"),
 "C28": ("proved", ["C28_reserve_changes_timelocked","C28_configs_valid","C28_index_and_decimals_fixed"], ""),
 "C29": ("proved", ["C29_reserve_list_bijection","C29_list_only_grows"], ""),
 "C30": ("proved", ["C30_update_status","C30_set_status","C30_status_changes_only_by_status_calls","C30_never_back_to_setup"], ""),
 "C31": ("proved", ["C31_threshold_exact"], ""),
 "C32": ("proved", ["C32_admin_settings"], ""),
 "C33": ("proved", ["C33_claimed_at_most_gulped"], ""),
 "C34": ("proved", ["C34_index_monotone","C34_claim_exact","C34_second_claim_zero","C34_others_untouched"], ""),
 "C35": ("proved", ["C35_emission_shares"], ""),
 "C52": ("proved", ["C52_registry_exact","C52_fresh_pool_safe","C52_no_reinitialization","C52_take_rate_bounded"], ""),
 "C49": ("proved", ["C49_one_blnd_per_second","C49_paid_to_current_backstop"], ""),
 "C50": ("proved", ["C50_swap_timelocked","C50_cancel_only_if_smaller"], ""),
 "C51": ("proved", ["C51_drop_at_most_once","C51_drop_authorized_and_capped","C51_total_drop_capped"], ""),

 "C36": ("proved", ["C36_share_conservation","C36_users_listable"], ""),
 "C37": ("proved", ["C37_deposits_backed","C37_nothing_recorded_before_init"], "for deployments whose backstop token is not BLND itself"),
 "C38": ("proved", ["C38_21_day_lock","C38_entries_expire_after_21_days","C38_withdraw_takes_only_expired"], ""),
 "C39": ("proved", ["C39_deposit_rounds_down","C39_withdraw_rounds_down","C39_donate","C39_deposit_then_withdraw"], ""),
 "C40": ("proved", ["C40_queue_bounded_and_ordered","C40_dequeue_oldest_first"], ""),
 "C41": ("proved", ["C41_only_the_pool_draws","C41_other_pools_untouched"], ""),
 "C42": ("proved", ["C42_owner_signs","C42_total_decreases_only_by_withdraw","C42_others_never_change_it"], ""),
 "C43": ("proved", ["C43_allocates_at_most_emitted"], ""),
 "C44": ("proved", ["C44_claimed_at_most_allocated","C44_restriction_needed"], "finding: execute_claim credits shares to `to` without updating the emissions of `to`"),
 "C26": ("proved", ["C26_fill_possible","C26_only_for_400_ledgers","C26_stuck_after_400"], "finding: an interest auction left unfilled for 400 ledgers blocks interest auctions until its storage entry expires"),
 "C27": ("proved", ["C27_bad_debt_possible","C27_insolvent_liquidatable","C27_restriction_needed"], "findings: dust collateral makes a debt neither liquidatable nor transferable to the backstop; price gaps where no liquidation percentage is accepted"),
 "C45": ("proved", ["C45_dequeue_possible","C45_restriction_needed"], "C45_restriction_needed shows that the restriction is needed (finding: update_emission_data divides by the unqueued shares)"),
 "C53": ("proved", ["C53_withdraw_possible"], ""),
 "C54": ("proved", ["C54_queue_possible"], ""),
 "C55": ("proved", ["C55_withdraw_possible","C55_repay_possible","C55_supply_possible"], ""),
 "C56": ("proved", ["C56_interest_computable","C56_overflow_locks","C56_restriction_needed"], "C56_restriction_needed gives a reachable locked reserve (finding: u32 overflow in calc_accrual)"),
 "C57": ("proved", ["C57_submit","C57_liquidation","C57_bad_debt","C57_interest"], ""),
 "C58": ("proved", ["C58_unchecked_is_safe"], ""),
 "C59": ("proved", ["C59_interest_rate","C59_rate_modifier","C59_modifier_reset"], "the lower bound subtracts 1e-9 year: accruing every second loses up to 2.2% of the interest to the rounding of the elapsed time"),
 "C60": ("proved", ["C60_borrow_possible","C60_collateral_withdrawal_possible","C60_collateral_supply_possible"], ""),
 "C61": ("proved", ["C61_emitter_initialize","C61_factory_initialize","C61_backstop_initialize","C61_pool_initialize","C61_initialized_once"], ""),
 "C62": ("proved", ["C62_set_admin","C62_update_pool","C62_queue_set_reserve","C62_cancel_set_reserve","C62_set_new_reserve","C62_set_existing_reserve","C62_set_status","C62_update_status","C62_set_emissions","C62_deploy","C62_queue_swap","C62_cancel_swap","C62_distribute","C62_swap_backstop","C62_add_reward"], "anybody can initialize a contract before its deployer does; the deployment scripts must do it in the deploying transaction"),
 "C63": ("proved", ["C63_queue","C63_dequeue","C63_withdraw","C63_deposit","C63_distribute","C63_blocked_until_withdrawal"], "finding: a pool of the reward zone with all shares queued blocks gulp_emissions for every pool"),
 "C64": ("proved", ["C64_storage_untouched","C64_backstop_untouched","C64_no_interference"], "emission claims, gulp_emissions and fills of bad debt and interest auctions use holdings the backstop keeps for all pools together and are left out of the third theorem"),
 "C65": ("proved", ["C65_fill_possible","C65_fill_needs","C65_restriction_needed"], ""),
 "C66": ("proved", ["C66_fill_possible","C66_fill_needs","C66_no_tokens_no_fill","C66_no_debt_no_fill","C66_tokens_needed","C66_debt_needed"], "findings: emptied backstops and burned debt leave auctions that block new ones"),
 "C67": ("proved", ["C67_liquidation_auction","C67_liquidation_needs","C67_interest_auction","C67_bad_debt_auction"], "exact (iff) under computability conditions; the necessity direction for liquidations needs only non-negative prices"),
 "C68": ("proved", ["C68_penalty","C68_fill_restores_health"], "the 200-ledger restriction is shown necessary by ex_C68_late"),
 "C69": ("proved", ["C69_supply","C69_wallets","C69_wallets_forever"], "the allowance condition is shown necessary by ex_C69_allowance"),
 "C70": ("proved", ["C70_batching"], "ex_C70_batch_only and ex_C70_parts_only show that acceptance does depend on the batching"),
 "C71": ("proved", ["C71_no_profit_in_a_ledger"], ""),
 "C72": ("proved", ["C72_rates_of_a_ledger","C72_order_does_not_matter"], ""),
 "C73": ("proved", ["C73_earned_is_covered","C73_allowance_ledger","C73_allowance_covers","C73_backstop_holds_it","C73_claim_possible","C73_expired_allowance","C73_lost_allowance"], ""),
 "C74": ("proved", ["C74_administration_touches_no_funds"], ""),
 "C75": ("proved", ["C75_time_pays_in_proportion","C75_emissions_in_proportion","C75_small_ticks_pay_nobody","C75_pokes_stop_the_stream"], "finding: frequent calls make the emission index lose the stream by rounding"),
 "C76": ("proved", ["C76_others_untouched","C76_claim_exact","C76_credited_claim"], "finding: a claim deposited for somebody else earns retroactively (see also C44)"),
 "C77": ("proved", ["C77_backstop_emissions_in_proportion","C77_small_ticks_pay_nobody","C77_pokes_stop_the_stream"], "finding: frequent calls make the emission index lose the stream by rounding"),
 "C78": ("proved", ["C78_claim_credits","C78_earned_is_covered","C78_earned_can_be_claimed","C78_named_twice_is_lost"], "finding: emissions of a pool named twice in one claim are lost"),
 "C79": ("proved", ["C79_distribution_split","C79_shares_complete","C79_share_proportional","C79_all_handed_out","C79_pool_split","C79_unconfigured_lost","C79_pool_parts_bounded"], "finding: emissions collected before the pool has an emissions configuration are lost"),
 "C80": ("proved", ["C80_step","C80_accounts_stay","C80_savings_never_shrink","C80_open_auction_takes_savings"], "finding: a stale liquidation auction still takes the collateral of an account that has repaid all its debt"),
 "C81": ("proved", ["C81_step","C81_deposits_lose_only_to_bad_debt","C81_bad_debt_takes_deposits"], "the restriction to histories without a bad debt fill is shown to be necessary"),
 "C82": ("proved", ["C82_user_balances_replay","C82_pool_balances_replay","C82_from_genesis","C82_events_defined"], "events modelled in Events.v; C82_events_defined shows the event function is total on successful calls"),
 "C83": ("proved", ["C83_book_replay","C83_from_genesis","C83_fill_events_overstate"], "finding: fill events carry the untruncated amount"),
 "C84": ("proved", ["C84_tokens_follow_events"], ""),
 "C85": ("proved", ["C85_value_conserved", "C85_value_conserved_history", "C85_no_more_lent_than_supplied"], ""),
 "C86": ("proved", ["C86_no_early_expiry", "C86_interest_blocked_45_days", "C86_interest_unblocked", "C86_queued_change_stays_100_days", "C86_drop_list_stays_100_days"], ""),
 "C87": ("proved", ["C87_only_deployed_pools", "C87_calls_fail"], ""),
 "C88": ("proved", ["C88_blnd_follows_events", "C88_no_silent_payment", "C88_swap_pays_silently"], "Restriction necessary (finding): the emitter's last distribution to a backstop being replaced is published nowhere."),
 "C89": ("proved", ["C89_configuration_replay", "C89_emission_shares_unpublished", "C89_first_settings_unpublished"], "Restriction necessary (findings): the shares a pool's admin gives its reserve tokens and the settings a pool starts with are published nowhere."),
 "C90": ("proved", ["C90_roster_replay", "C90_zone_event_ambiguous"], "Restriction necessary (finding): without the ledger times the rw_zone event is ambiguous."),
 "C91": ("proved", ["C91_what_endangers_an_account"], ""),
 "C92": ("proved", ["C92_debt_growth", "C92_debt_growth_least", "C92_worst_rate"], ""),
 "C93": ("proved", ["C93_silent_dtokens", "C93_silent_debt"], ""),
 "C94": ("proved", ["C94_margin", "C94_rate_cap", "C94_time_margin"], ""),
 "C95": ("proved", ["C95_no_liquidation_in_the_same_ledger"], ""),
 "C96": ("proved", ["C96_small_interest_is_lost", "C96_starved"], ""),
 "C97": ("proved", ["C97_rounding_cost", "C97_supply_credited", "C97_loan_charged"], ""),
 "C46": ("proved", ["C46_no_duplicates_and_bounded","C46_admission"], ""),
 "C47": ("proved", ["C47_handover_conserved","C47_handover_exact"], ""),
 "C48": ("proved", ["C48_allocated_at_most_minted","C48_restriction_needed"], "finding: a backstop swapped out and in again allocates BLND minted to the other backstop"),
}
if __name__ == "__main__":
    claims=[{"property":k,"status":s,"theorems":t,"note":n} for k,(s,t,n) in sorted(T.items())]
    open("/verif/MANIFEST.json","w").write(json.dumps({"claims":claims},indent=1)+"\n")
