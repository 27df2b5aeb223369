#!/usr/bin/env python3
"""Writes /verif/properties.jsonl (one JSON object per property)."""
import json, os
P=[]
def p(id,title,statement,quantifier,why,anchors):
    P.append(dict(id=id,title=title,statement=statement,quantifier=quantifier,why_tests_cant=why,anchors=anchors))
ALLH="every finite history of protocol calls (any order, any callers, any arguments), ledger-time advances, oracle changes, external token transfers and temporary-entry expiries, starting from an empty deployment"
WHYH="a unit test fixes one history; the claim is about every interleaving of users, auctions, accruals and admin calls"
WHYI="a unit test samples a few numbers; the claim is about every integer amount, rate and rounding remainder"

p("C01","Pool share supplies equal the sum of user positions",
"For each reserve of a pool, the reserve's d_supply equals the sum over all users of the liabilities that get_positions reports for that reserve, and b_supply equals the sum over all users of collateral plus uncollateralised supply.",
ALLH,WHYH,["pool/src/pool/user.rs:User::add_liabilities..rm_positions","pool/src/pool/pool.rs:Pool::load_reserve,cache_reserve,store_cached_reserves","pool/src/pool/submit.rs:execute_submit","pool/src/pool/bad_debt.rs","pool/src/auctions"])
p("C02","Stored positions are strictly positive and refer to existing reserves",
"Every entry that get_positions reports is strictly positive and is keyed by the index of a reserve in the pool's reserve list; consequently 'has liabilities' (non-empty map) means 'owes something'.",
ALLH,WHYH,["pool/src/pool/user.rs","pool/src/pool/submit.rs"])
p("C03","Pool solvency up to burned bad debt",
"For every reserve, underlying tokens held by the pool plus outstanding debt (underlying) is at least supplier claims plus backstop credit, minus only the debt that was explicitly burned by a bad-debt auction fill; no other call increases the shortfall.",
ALLH,WHYH,["pool/src/pool/actions.rs:build_actions_from_request","pool/src/pool/reserve.rs:Reserve::load","pool/src/auctions/bad_debt_auction.rs:fill_bad_debt_auction","pool/src/auctions/backstop_interest_auction.rs:fill_interest_auction"])
p("C04","Exchange rates never decrease",
"The b_rate and d_rate of a reserve never decrease over time and never drop below 1.0, whatever calls are made (even bad-debt burning does not lower b_rate).",
ALLH,WHYH,["pool/src/pool/reserve.rs:Reserve::load","pool/src/pool/interest.rs:calc_accrual"])
p("C05","Interest-rate modifier stays within [0.1, 10]",
"The interest rate modifier of every reserve is always between 0.1 and 10 (9 decimals).",
ALLH,WHYH,["pool/src/pool/interest.rs:calc_accrual","pool/src/pool/config.rs:initialize_reserve"])
p("C06","No value extraction by rounding in a submit",
"For every submit consisting of supply / withdraw / collateral / borrow / repay requests, tokens paid out minus tokens paid in per reserve never exceed the exact (rational) value of the shares given up at the reserve's current rates.",
"every reserve state, every user position and every list of requests (any length, any amounts, repeated assets)",WHYI,["pool/src/pool/actions.rs:build_actions_from_request","pool/src/pool/reserve.rs:to_*_token_*"])
p("C07","Withdraw and repay are capped exactly at the position",
"A withdraw request for more than the position pays floor(position value) and removes the entry; a repay that buys more dTokens than are owed refunds everything above ceil(debt value) and removes the entry, and any other repay takes the whole amount and loses less than the value of one dToken to rounding; whatever submits a user makes in one ledger, if they end with at least their initial bTokens and at most their initial dTokens of a reserve, the pool has paid nothing out on balance.",
"every rate, amount and balance",WHYI,["pool/src/pool/actions.rs","pool/src/pool/reserve.rs"])
p("C08","Borrowers are healthy after risk-increasing submits",
"After any successful submit that contains a borrow, withdraw-collateral, auction fill of type 0/1 or auction deletion, and no negative price is reported for an asset of the pool, if the user still has liabilities then the oracle value of effective collateral is at least 1.00001 times the oracle value of effective liabilities (up to one unit of oracle precision).",
"every pool state, price vector, set of reserves and request list",WHYH,["pool/src/pool/submit.rs:execute_submit","pool/src/pool/health_factor.rs"])
p("C09","Pool status gates requests",
"A successful submit never contains a borrow or auction-deletion when the status is above 1, nor a supply or supply-collateral when the status is above 3; withdrawals, repayments and fills are never refused because of the status.",
"every status, every request list",WHYI,["pool/src/pool/pool.rs:require_action_allowed","pool/src/pool/actions.rs"])
p("C10","Position count limit",
"A submit never ends with a user holding more effective positions than both their previous count and the pool's max_positions.",
"every state and request list",WHYI,["pool/src/pool/pool.rs:require_under_max","pool/src/pool/actions.rs"])
p("C11","Borrowing respects the utilization cap",
"After a successful submit that borrows a reserve, the reserve's utilization (debt over supply, rounded up) is at most max_util, unless a later request of the same submit withdraws from that reserve. The restriction is necessary: a submit that borrows and then withdraws can end above max_util (finding).",
"every reserve state and amount",WHYI,["pool/src/pool/reserve.rs:require_utilization_below_max","pool/src/pool/actions.rs"])
p("C12","Positions are isolated and need authorization",
"A call that user u did not authorize never decreases u's uncollateralised supply and never increases u's liabilities (unless u is the backstop); u's collateral and liabilities can only change without u's authorization by a fill of u's liquidation auction or by a bad_debt call on u.",
ALLH,WHYH,["pool/src/contract.rs:submit","pool/src/pool/submit.rs","pool/src/auctions/user_liquidation_auction.rs:fill_user_liq_auction","pool/src/pool/bad_debt.rs"])
p("C13","Token flows of submit",
"In a successful submit made only of supply/withdraw/borrow/repay requests, spender pays exactly the sum of supply and repay amounts, 'to' receives exactly the sum of withdrawals, borrows and refunds, and nobody else's token balance changes.",
"every request list, including spender = to = from",WHYH,["pool/src/pool/submit.rs:execute_submit","pool/src/pool/actions.rs:Actions"])
p("C14","Interest is split between suppliers and backstop without creation",
"On accrual, the backstop's credit grows by floor(accrued * bstop_rate) and supplier claims plus credit grow by at most the accrued debt and by no less than it up to the rounding of one rate step (1e-9 per share) and one unit; with nothing borrowed or no elapsed time the reserve does not change value.",
"every reserve state, configuration and elapsed time",WHYI,["pool/src/pool/reserve.rs:Reserve::load"])
p("C15","Interest curve is monotone in utilization",
"With all else equal, higher utilization never yields a lower interest accrual, across all three legs of the curve and their junctions.",
"every valid reserve configuration, modifier, elapsed time and pair of utilizations",WHYI,["pool/src/pool/interest.rs:calc_accrual"])
p("C16","Liquidation auctions are only opened on eligible users and are bounded",
"new_liquidation_auction succeeds only if no auction is open for the user, 1 <= percent <= 100, the user is neither the pool nor the backstop, and effective liabilities are at least effective collateral; the auction starts next ledger, every lot/bid amount is within the user's position; a partial liquidation leaves a health factor between 1.03 and 1.15.",
"every pool state, prices and percent",WHYH,["pool/src/auctions/user_liquidation_auction.rs:create_user_liq_auction_data","pool/src/auctions/auction.rs:create_liquidation"])
p("C17","Auction price curve",
"The share of the lot paid out rises 0.5% per ledger from 0% to 100% over the first 200 ledgers, the share of the bid charged falls 0.5% per ledger from 100% to 0% over the next 200; waiting never makes a fill worse for the filler.",
"every auction, fill percent and ledger offset",WHYI,["pool/src/auctions/auction.rs:scale_auction"])
p("C18","Partial fills conserve the auction",
"Each partial fill splits every bid and lot amount into the filled base and the stored remainder exactly; any sequence of fills in total takes no more than the original lot and bid; rounding always favours the auction (bid up, lot down).",
"every auction, every sequence of fill percentages",WHYI,["pool/src/auctions/auction.rs:scale_auction,fill"])
p("C19","Fill percentages outside 1..100 are rejected",
"A fill request whose amount, reduced modulo 2^64, is not between 1 and 100 fails. The reduction is necessary: an amount of 2^64 + 50 is accepted and fills 50% (finding).",
"every i128 amount",WHYI,["pool/src/pool/actions.rs:build_actions_from_request","pool/src/auctions/auction.rs:scale_auction"])
p("C20","A liquidation fill moves exactly the scaled lot and bid from user to filler",
"Filling a user liquidation removes from the user and adds to the filler exactly the scaled lot (collateral) and bid (liabilities); totals per reserve are unchanged and nobody else's position changes.",
"every state, auction and percent",WHYH,["pool/src/auctions/auction.rs:fill","pool/src/auctions/user_liquidation_auction.rs:fill_user_liq_auction"])
p("C21","No self-fill and no same-ledger fill",
"An auction can never be filled by the address being auctioned, nor in the ledger in which it was created.",
"every state and request list",WHYH,["pool/src/auctions/auction.rs:fill,scale_auction"])
p("C22","Only the owner of a healthy position can cancel a liquidation auction",
"An open liquidation auction disappears only by being filled completely, by temporary-storage expiry, or by a submit from the liquidated user in an active pool after which the user has no debt or a health factor of at least 1.00001.",
ALLH,WHYH,["pool/src/auctions/auction.rs:delete_liquidation","pool/src/pool/submit.rs"])
p("C23","bad_debt moves exactly the stranded debt to the backstop",
"bad_debt(u) succeeds only if u has liabilities and no collateral; it removes all of u's liabilities, adds them to the backstop, leaves total debt unchanged and changes nobody else.",
"every pool state and user",WHYH,["pool/src/pool/bad_debt.rs:transfer_bad_debt_to_backstop"])
p("C24","Backstop debt is burned only under the 5% threshold",
"A bad-debt auction offers backstop tokens worth 1.4 times the oracle value of the backstop's debt (at the reserves of the pool that backs them), or all of them if that is less, and can take from the backstop at most the backstop's tokens for that pool; remaining backstop debt is burned only if the pool's backstop is below ~5% of the threshold, and burning removes only the backstop's own liabilities.",
"every state and fill",WHYH,["pool/src/auctions/bad_debt_auction.rs"])
p("C25","Interest auctions sell exactly the accrued backstop credit",
"new_interest_auction offers exactly the accrued backstop credit of the listed assets, and only when the listed credits are worth more than 200 base units in total (an asset listed twice counts twice; finding: so repeating an asset gets around the minimum); a fill transfers the scaled lot to the filler, reduces the credit by the same amount and donates the scaled bid to the pool's backstop. The credit never becomes negative in any history in which the take rate is not lowered while an interest auction is open. The restriction is necessary: lowering the take rate under an open auction lets a fill drive the credit below zero, paid from suppliers' tokens (finding).",
ALLH,WHYH,["pool/src/auctions/backstop_interest_auction.rs"])
p("C26","Interest auctions can be filled during exactly 400 ledgers",
"From the ledger after its creation until 399 ledgers later, any percentage of an open interest auction can be filled by anybody who holds the backstop tokens asked for, as long as the pool holds and has credited the lot and the amounts fit 128 bits. From its 400th ledger on an interest auction can never be filled (finding: the documentation promises a zero bid, the code then finds no bid entry and traps), and no other interest auction can be created in the pool until the ledger entry expires.",
"every reachable state, open interest auction, filler, percentage and later history",WHYH,["pool/src/auctions/backstop_interest_auction.rs:fill_interest_auction,create_interest_auction_data","pool/src/auctions/auction.rs:scale_auction"])
p("C27","Insolvent positions can be dealt with",
"While 128-bit arithmetic suffices, prices are fresh and the interest of the reserves involved can be computed: the debt of every user (other than the backstop) who has debt and no collateral can be handed to the backstop by anyone through bad_debt; and a 100% liquidation can be created by anyone for every user without an open auction whose collateral has a positive value that does not exceed the value of the debt. The restriction is necessary (finding): a user with debt and dust collateral worth less than one oracle unit can neither be liquidated at any percentage nor be handed to the backstop, and there are under-collateralised (but not insolvent) positions for which no percentage from 1 to 100 is accepted.",
"every reachable pool state, user and set of signers",WHYH,["pool/src/auctions/user_liquidation_auction.rs","pool/src/pool/bad_debt.rs"])
p("C28","Reserve changes are time-locked, valid and keep identity",
"A reserve configuration takes effect only if it was queued by the admin at least 7 days earlier, or while the pool was in setup; every configuration in force satisfies the documented bounds; a reserve's index and decimals never change.",
ALLH,WHYH,["pool/src/pool/config.rs"])
p("C29","Reserve list is a bounded bijection",
"The reserve list never exceeds 32 entries, has no duplicates, never shrinks or reorders, and each listed asset's configured index is its position in the list.",
ALLH,WHYH,["pool/src/storage.rs:push_res_list","pool/src/pool/config.rs:initialize_reserve"])
p("C30","Pool status follows the backstop",
"update_status and set_status produce exactly the documented status for every backstop level: setup and admin-frozen cannot be left by update_status, the admin cannot set active (0) unless the threshold is met with q4w < 50%, nor on-ice unless q4w < 75%; a pool that left setup never returns to it.",
ALLH,WHYI,["pool/src/pool/status.rs"])
p("C31","Saturating threshold arithmetic decides exactly",
"The saturating product constant used by the pool and by the backstop gives exactly the answer of unbounded arithmetic, so both contracts agree on whether the backstop threshold is met.",
"every pair of non-negative i128 balances",WHYI,["pool/src/pool/status.rs:calc_pool_backstop_threshold","backstop/src/backstop/pool.rs:require_pool_above_threshold"])
p("C32","Administration needs the admin's signature",
"The admin, take rate, max positions, queued reserves and emission shares of a pool change only in a call authorized by the current admin (the admin hand-over also by the new admin).",
ALLH,WHYH,["pool/src/contract.rs"])
p("C33","Pool emissions claimed never exceed emissions received",
"The total BLND paid out by a pool's claim calls never exceeds the total BLND the pool has gulped from the backstop.",
ALLH,WHYH,["pool/src/emissions/distributor.rs","pool/src/emissions/manager.rs"])
p("C34","Emission indexes are monotone and claims are exact",
"Emission indexes never decrease, a user's claim pays exactly the accrued amount for their balance over the elapsed index, a second claim in the same ledger pays nothing, and no other transaction ever lowers what a user can claim, or changes it within a ledger (except for a token nobody held before: the emissions of the empty period go to whoever takes it up).",
"every state, user and token id",WHYH,["pool/src/emissions/distributor.rs"])
p("C35","Emission shares never exceed 100%",
"The per-reserve-token emission shares stored by set_emissions_config always sum to at most 100% and refer to existing reserves.",
ALLH,WHYI,["pool/src/emissions/manager.rs:set_pool_emissions"])
p("C36","Backstop share conservation",
"For every pool, the backstop's shares equal the sum over users of free plus queued shares, its queued total equals the sum of all queue entries, and queued never exceeds total.",
ALLH,WHYH,["backstop/src/backstop/*.rs","backstop/src/emissions/claim.rs"])
p("C37","Backstop deposits are fully backed",
"The LP tokens held by the backstop contract are at least the sum of the token balances recorded for all pools.",
ALLH,WHYH,["backstop/src/backstop/deposit.rs","backstop/src/backstop/withdrawal.rs","backstop/src/backstop/fund_management.rs","backstop/src/emissions/claim.rs"])
p("C38","21-day withdrawal lock",
"Shares withdrawn from the backstop at time t were queued at or before t minus 21 days: over any history, cumulative withdrawals by time t never exceed the amount queued by t - 21 days.",
ALLH,WHYH,["backstop/src/backstop/user.rs","backstop/src/backstop/withdrawal.rs"])
p("C39","Backstop share price rounding never favours the caller",
"Depositing never mints more shares than proportional and withdrawing never pays more than proportional, so tokens-per-share never decreases for the others on deposit, withdraw or donate; deposit into a pool that has outstanding shares (or no tokens), followed by withdraw, never profits. (The first depositor of a pool without shares owns tokens donated to it before.)",
"every pool balance and amount",WHYI,["backstop/src/backstop/pool.rs:PoolBalance"])
p("C40","Withdrawal queue is bounded and ordered",
"A user's withdrawal queue holds at most 21 entries, in non-decreasing expiry order; dequeuing removes exactly the requested amount, oldest first.",
ALLH,WHYH,["backstop/src/backstop/user.rs"])
p("C41","Only a pool can draw its own backstop tokens",
"A pool's recorded backstop tokens decrease only through withdrawals of queued shares or through a draw authorized by that pool; other pools' balances are untouched.",
ALLH,WHYH,["backstop/src/contract.rs:draw","backstop/src/backstop/fund_management.rs"])
p("C42","Backstop shares only move with the owner's signature",
"A user's free or queued backstop shares decrease only in calls the user authorized, and calls by one user never change another user's balance except that a claim may credit its chosen recipient.",
ALLH,WHYH,["backstop/src/contract.rs","backstop/src/backstop"])
p("C43","Backstop distribution never allocates more than was emitted",
"One gulp_emissions call allocates, over all reward-zone pools and both streams, at most one BLND per second elapsed since the last distribution (70% to depositors, 30% to pools).",
"every reward zone, balances and elapsed time",WHYI,["backstop/src/emissions/manager.rs:gulp_emissions"])
p("C44","Backstop emissions claimed never exceed emissions allocated",
"In every history whose backstop claims all credit the claimer itself (to = from), the BLND claimed by backstop depositors of a pool never exceeds the BLND that gulp_emissions allocated to that pool's depositors, and all claims together never exceed 70% of what gulp_emissions returned. The restriction is necessary: there is a history in which a claim credited to another address lets a pool's depositors claim more than was allocated (finding).",
ALLH,WHYH,["backstop/src/emissions/claim.rs:execute_claim","backstop/src/emissions/distributor.rs"])
p("C45","Queued withdrawals can be dequeued",
"A user with queued shares can dequeue any part of them at any time, provided the emissions of the pool's depositors can be updated: none are due, or not all shares of the pool are queued; and the emission arithmetic fits the 128-bit integers. The restriction is necessary (finding): when all shares of a pool with emissions due are queued, dequeuing, depositing into the pool and gulp_emissions for the whole backstop trap.",
"every reachable state, user, pool and amount up to the queued amount",WHYH,["backstop/src/backstop/withdrawal.rs:execute_dequeue_withdrawal","backstop/src/emissions/distributor.rs:update_emission_data_with_config"])
p("C46","Reward zone integrity",
"The reward zone never lists a pool twice, never exceeds its time-dependent maximum, admits only pools above the backstop threshold, and a full zone only replaces a pool by one with strictly more backstop tokens.",
ALLH,WHYH,["backstop/src/emissions/manager.rs:add_to_reward_zone"])
p("C47","Pool emission hand-over is exact",
"gulp_pool_emissions hands a pool exactly what gulp_emissions recorded for it, once: the sum of amounts handed over plus the amount still recorded equals the sum allocated.",
ALLH,WHYH,["backstop/src/emissions/manager.rs:gulp_pool_emissions"])
p("C48","Backstop never allocates BLND that was not minted to it",
"Over any history in which the backstop, once replaced at the emitter, does not become its current backstop again, the BLND returned by gulp_emissions (which bounds what it allocates) is at most the BLND the emitter minted to the backstop by distribute and swap. The restriction is necessary: after a swap away and back, gulp_emissions allocates BLND that was minted to the other backstop (finding).",
ALLH+" (including backstop swaps)",WHYH,["backstop/src/emissions/manager.rs:gulp_emissions","emitter/src/backstop_manager.rs","emitter/src/emitter.rs"])
p("C49","Emission rate is exactly one BLND per second",
"Over any history, the BLND minted by distribute and swap equals exactly one token per second from initialization to the last distribution of the current backstop, across any number of backstop swaps.",
ALLH,WHYH,["emitter/src/emitter.rs:execute_distribute","emitter/src/backstop_manager.rs:execute_swap_backstop"])
p("C50","Backstop swaps are time-locked and need a larger backstop",
"The emitter's backstop changes only to an address queued at least 31 days before that held more backstop tokens than the current one both when queued and when swapped; a queued swap can be cancelled only when it no longer holds more.",
ALLH,WHYH,["emitter/src/backstop_manager.rs"])
p("C51","Drop happens at most once per backstop and is capped",
"For each backstop address at most one drop succeeds, only with the backstop's authorization, and it mints at most 50 million BLND in total.",
ALLH,WHYH,["emitter/src/emitter.rs:execute_drop"])
p("C52","Factory registry is exact and pools start safe",
"is_pool is true exactly for addresses returned by successful deploy calls; a freshly deployed pool is initialized in setup status with the factory's backstop and BLND token, a take rate below 100% and max_positions of at least 2, and can never be re-initialized; the take rate stays below 100% forever.",
ALLH,WHYH,["pool-factory/src/pool_factory.rs","pool/src/pool/config.rs:execute_initialize,execute_update_pool"])
p("C53","Expired withdrawals can always be taken",
"Shares whose 21 days in the queue are over can be withdrawn at any time, whatever else happened to the backstop (emissions, draws by the pool, swaps of the emitter's backstop), as long as the pool's remaining tokens give at least one token unit for them and the amounts fit 128 bits. (Deployments whose backstop token is not BLND itself.)",
"every reachable state, user, pool and amount up to the expired amount",WHYH,["backstop/src/backstop/withdrawal.rs:execute_withdraw","backstop/src/backstop/pool.rs:PoolBalance.withdraw"])
p("C54","Leaving the backstop can always be started",
"A depositor with fewer than 21 queue entries can queue any part of its unqueued shares at any time and gets back an entry expiring exactly 21 days later, provided the emissions of the pool's depositors can be updated (as in C45).",
"every reachable state, user, pool and amount up to the user's shares",WHYH,["backstop/src/backstop/withdrawal.rs:execute_queue_withdrawal","backstop/src/backstop/user.rs:UserBalance.queue_shares_for_withdrawal"])
p("C55","Suppliers can leave and borrowers can repay, whatever the pool's status",
"In every pool state, including frozen pools and pools in setup: a supplier can withdraw any amount of its supply that the pool holds as tokens (and of its collateral, if it has no debt), and a borrower can repay any amount worth at least one dToken, with the excess over its debt paid out; in pools of status 0-3 anybody can supply any amount worth at least one bToken. Conditions: the reserve's interest can be computed (C56) and the amounts involved fit 128-bit integers.",
"every reachable state, pool, user, asset and amount",WHYH,["pool/src/pool/submit.rs:execute_submit","pool/src/pool/actions.rs:build_actions_from_request","pool/src/pool/pool.rs:Pool.require_action_allowed"])
p("C56","Interest can always be computed",
"The interest of a reserve can be computed, so that it stays usable, whenever its base rate, first and second slopes add up to at most 2^32-1 (7 decimals), its utilization is at most 200%, at most a year has passed since the last accrual and its amounts leave room for a year of interest in 128-bit integers. The restriction on the slopes is necessary (finding): configurations with larger sums are accepted, and once utilization is above 95% and a second has passed the reserve is locked for ever - no supply, withdrawal, borrow or repayment of it ever succeeds again and its configuration can no longer be changed.",
"every reachable state, pool and reserve; for the lock, every later history",WHYH,["pool/src/pool/interest.rs:calc_accrual","pool/src/pool/reserve.rs:Reserve.load","pool/src/pool/config.rs:require_valid_reserve_metadata"])
p("C57","Prices are never older than a day",
"Every operation that relies on a price relies on one at most 24 hours old: borrowing, withdrawing collateral and filling liquidations by an account that ends with debt (all its assets), opening a liquidation (all assets of the account), opening a bad debt auction (all assets the backstop owes) and an interest auction (all assets sold) fail otherwise.",
"every reachable state, pool, account and oracle content",WHYH,["pool/src/pool/pool.rs:Pool.load_price","pool/src/auctions/bad_debt_auction.rs","pool/src/auctions/backstop_interest_auction.rs"])
p("C58","Requests that skip the health check never hurt the account",
"A submission without borrowing, collateral withdrawal and liquidation fill (the requests after which no health check is made) never lowers the factor-weighted value of the account's collateral and never raises that of its debt, at any non-negative prices.",
"every reachable state, submission of any length and non-negative prices",WHYH,["pool/src/pool/submit.rs:execute_submit","pool/src/pool/actions.rs:build_actions_from_request"])
p("C59","Interest follows the documented curve",
"Whenever a reserve's interest is accrued, its debt rate grows by the elapsed part of a year times the documented three-leg curve at the current utilization (exact rational arithmetic), up to stated roundings (upwards in the rate, at most a billionth of a year in time). The rate modifier rises in proportion to time and distance while utilization is above the target and falls while below, within [0.1, 10]; setting a new configuration resets it to 1 exactly if it changes the curve, and nothing else changes it.",
"every reachable state, operation, reserve and elapsed time",WHYH,["pool/src/pool/interest.rs:calc_accrual","pool/src/pool/reserve.rs:Reserve.load","pool/src/pool/config.rs:initialize_reserve"])
p("C60","Healthy accounts can borrow, take out and add collateral",
"In an active pool anybody can borrow any amount the pool holds, as long as afterwards the account's health factor is at least 1.00001, the reserve's utilization is at most its maximum and the account is within the maximum number of positions; a borrower can take out any part of its collateral that the pool holds, in every pool status, as long as it stays as healthy; and unless the pool is frozen or in setup anybody can supply collateral worth at least one bToken within the maximum number of positions. With C08, C10 and C11 this makes these conditions exact. Conditions: all assets of the account have prices at most a day old, interest can be computed (C56) and the amounts fit 128-bit integers.",
"every reachable state, pool, account, asset and amount",WHYH,["pool/src/pool/submit.rs:execute_submit","pool/src/pool/actions.rs:build_actions_from_request","pool/src/pool/health_factor.rs","pool/src/pool/pool.rs:Pool.require_under_max"])
p("C61","Contracts are initialized exactly once",
"The emitter, the factory, the backstop and a pool can each be initialized exactly if they have not been (the backstop only with the emitter it belongs to, a pool only with the signature of its admin, a take rate below 100% and at least 2 positions), record exactly the addresses given and change nothing else; afterwards no call initializes them again and the token, backstop, factory, emitter and oracle addresses never change.",
"every state, caller and argument; for the addresses, every later history",WHYH,["emitter/src/contract.rs:initialize","pool-factory/src/pool_factory.rs:initialize","backstop/src/contract.rs:initialize","pool/src/pool/config.rs:execute_initialize"])
p("C62","Administration calls succeed exactly when documented",
"Each administration call succeeds if and only if its documented conditions hold, and then changes exactly what it names: set_admin (both signatures), update_pool (admin, take rate below 100%), queue_set_reserve (admin, nothing queued for the asset, every parameter within its documented bounds, unlocked after 7 days, or at once while the pool is being set up), cancel_set_reserve, set_reserve (unlocked, fewer than 32 reserves or the same decimals), set_status and update_status (backstop level), set_emissions_config (listed reserves, up to 100%), factory deploy, emitter queue/cancel/swap_backstop and distribute, and adding to the reward zone.",
"every state, caller and argument (reachable states where arithmetic on stored values is involved)","a unit test samples a few arguments; the claim is an equivalence over all states, callers and arguments",["pool/src/pool/config.rs","pool/src/pool/status.rs","pool/src/emissions/manager.rs:set_pool_emissions","pool-factory/src/pool_factory.rs:deploy","emitter/src/backstop_manager.rs","emitter/src/emitter.rs","backstop/src/emissions/manager.rs:add_to_reward_zone"])
p("C63","Backstop calls succeed exactly when documented",
"queue_withdrawal, dequeue_withdrawal, withdraw, deposit and gulp_emissions succeed if and only if their documented conditions hold (signature; amounts within the caller's shares, queue entries or balance; at most 20 other queue entries; an expired queue entry for a withdrawal; a registered pool for a first deposit; a non-empty reward zone, over an hour of undistributed emissions and unqueued deposits for the distribution), return exactly the documented amount, and, except for withdraw, provided that no pool concerned has emissions running while all its shares are queued for withdrawal. The proviso is necessary (finding): once all shares of a reward-zone pool are queued and the last distribution was over a day ago, no sequence of calls by anybody distributes emissions to any pool, or lets anybody deposit into, queue, dequeue or claim from that pool, until somebody withdraws from it.",
"every reachable state, pool, user and amount (within 128-bit arithmetic); for the proviso, every later history",WHYH,["backstop/src/backstop/withdrawal.rs","backstop/src/backstop/deposit.rs","backstop/src/emissions/manager.rs:gulp_emissions","backstop/src/emissions/distributor.rs:update_emission_data"])
p("C64","Pools are isolated from one another",
"No transaction other than a call of the pool itself (or the expiry of its temporary storage) changes a pool's storage or reduces the tokens it holds; a call of one pool changes nothing the backstop records for another pool (shares, tokens, withdrawal queues, emissions) nor the reward zone; and whatever sequence of calls is made to other pools in between, every call of a pool other than emission claims, gulp_emissions and fills of backstop auctions has the same outcome - same result or same error, same storage, same token balances - provided payer, receiver and pool hold the same tokens.",
"every reachable state, transaction and pair of pools; for outcomes, every sequence of calls to other pools and every call","non-interference quantifies over all pairs of executions; a test compares two of them",["pool/src/contract.rs","pool/src/pool/submit.rs:execute_submit","backstop/src/backstop/fund_management.rs"])
p("C65","Liquidation auctions can be filled",
"From its first ledger on and for ever, anybody but the liquidated user can fill any percentage of a liquidation auction, in every pool status, if the user still has the collateral and debt that are taken over and the filler, with them, is healthy and within the maximum number of positions. The first condition is necessary (finding): during the first 200 ledgers of an auction of all of a user's debt, the user's repaying one unit makes every fill of the whole auction fail, while slightly smaller percentages still work. Conditions: all assets of the filler can be valued and 128-bit integers suffice.",
"every reachable state, pool, auction, filler, percentage and age of the auction",WHYH,["pool/src/auctions/user_liquidation_auction.rs:fill_user_liq_auction","pool/src/auctions/auction.rs:fill","pool/src/pool/user.rs:rm_positions","pool/src/pool/submit.rs:execute_submit"])
p("C66","Bad debt auctions can be filled while the backstop holds the lot",
"From the ledger in which its lot is worth a unit on and for ever, anybody can fill any percentage of a bad debt auction if the backstop still owes the debt that is taken over, the pool's backstop holds the tokens to be paid, and the filler is healthy with the debt and within the maximum number of positions; this includes fills that burn what the backstop still owes afterwards. All three conditions are necessary (findings): if the depositors withdraw after the auction was created nobody can fill it and no new one can be created; after a partial fill that burned the rest of the debt nobody can fill the rest of the auction before its 400th ledger, no new auction can be created, and from then on a filler takes the rest of the lot from the depositors without taking any debt. Conditions: the backstop's and the filler's assets can be valued and 128-bit integers suffice.",
"every reachable state, pool, auction, filler, percentage and age of the auction",WHYH,["pool/src/auctions/bad_debt_auction.rs:fill_bad_debt_auction","pool/src/auctions/auction.rs:fill","pool/src/pool/user.rs:rm_positions","backstop/src/backstop/fund_management.rs:execute_draw"])
p("C67","Auctions can be opened exactly when documented",
"new_liquidation_auction succeeds if and only if the user is neither the pool nor the backstop, has no liquidation auction, the percentage is 1 to 100, both the collateral and the debt are worth something, the factor-weighted collateral does not exceed the factor-weighted debt, and: for 100%, the collateral is worth at most the lot that the debt should buy; for less, neither share rounds to zero and what would be left is at a health factor between 1.03 and 1.15. The bid is the given percentage of each debt and the lot the share of each collateral worth the bid times 1 + (1 - cf/lf)/2 for the account's average factors cf and lf, rounded up and at most all. new_interest_auction succeeds if and only if there is none, all listed assets are reserves (with a price of today if any credit is due), the credits are worth more than 200 and the backstop tokens are worth something; new_bad_debt_auction if and only if there is none, the debts of the backstop have prices of today and are worth something, and so are the backstop tokens. Conditions: interest, values and emissions can be computed in 128-bit integers.",
"every reachable state, pool, user, percentage and list of assets",WHYH,["pool/src/auctions/user_liquidation_auction.rs:create_user_liq_auction_data","pool/src/auctions/backstop_interest_auction.rs:create_interest_auction_data","pool/src/auctions/bad_debt_auction.rs:create_bad_debt_auction_data","pool/src/auctions/auction.rs:create_liquidation"])
p("C68","What a liquidation costs and what it restores",
"The lot of a liquidation auction is worth at most the debt in its bid times a premium 1 + (1 - cf/lf)/2 that is between 1 and 1.5, and no less than that unless it is all of the user's collateral; the bid is worth the given percentage of the debt. All this up to explicit rounding errors: a few smallest units of the assets involved, and the collateral's value times the oracle's last decimal. When an auction of less than all debts is filled as a whole within the first 200 ledgers of its life, and the user has not withdrawn or borrowed meanwhile, the user's health factor is at least 1.03 with the prices and rates of the time when the auction was opened. The restriction to 200 ledgers is necessary (finding): later the full lot is handed out for a shrinking part of the debt, and the user's health can get worse.",
"every reachable state, pool, user, percentage, filler, and every history between the opening and the fill of the auction",WHYH,["pool/src/auctions/user_liquidation_auction.rs:create_user_liq_auction_data","pool/src/auctions/user_liquidation_auction.rs:fill_user_liq_auction","pool/src/auctions/auction.rs:scale_auction"])
p("C69","Wallets are debited only with consent and the contracts create no tokens",
"No transaction of any of the contracts lowers a token balance of an address that is not one of the contracts unless it signed the transaction, or somebody with an unexpired allowance from it acts in it (the called pool or a signer); nobody gets such an allowance without the address's signature, so an address that has given none keeps its tokens through any history it does not sign. The total amount of every token is unchanged by every call of a pool, and by every call of the other contracts except that the emitter's distribute, swap and drop (also through the backstop's drop) create BLND and a backstop claim that pays something mints the LP tokens it buys.",
"every token, address, transaction and history",WHYH,["pool/src/pool/submit.rs:execute_submit","pool/src/emissions/distributor.rs:execute_claim","backstop/src/backstop/fund_management.rs:execute_draw,execute_donate","backstop/src/emissions/claim.rs:execute_claim","emitter/src/emitter.rs:execute_distribute,execute_drop"])
p("C70","Sending requests together or one after the other makes no difference",
"If a list of requests is accepted as one submission, and also as two submissions of its two parts right after each other by the same caller, then both ways end in the same state: the same positions, reserves, auctions, emissions, backstop, allowances and token balances, and the same answer. (Whether a list is accepted does depend on it: the health and position limits are checked at the end of each submission, and what is paid in is taken before anything is paid out.)",
"every reachable state, list of requests, split and combination of owner, payer and receiver","the state reached depends on every request list and every state it starts from, with rounding at each request",["pool/src/pool/submit.rs:execute_submit","pool/src/pool/actions.rs:build_actions_from_request"])
p("C71","Nobody can gain within a ledger, not even a group working over several pools",
"Take any group of accounts and any set of pools. Whatever supplying, withdrawing, borrowing and repaying the group's members do in these pools for each other during one ledger, and however prices move in between, for every token the exact value of what the group has in its wallets and in the pools (bTokens minus dTokens at the current rates) never grows.",
"every reachable state, group of accounts, set of pools, token and sequence of transactions within a ledger","an attack is a sequence of transactions with freely chosen amounts; only a proof covers all of them",["pool/src/pool/actions.rs:build_actions_from_request","pool/src/pool/reserve.rs:to_b_token_down,to_b_token_up,to_d_token_down,to_d_token_up"])
p("C72","The rates of a ledger are fixed and the order of submissions within it does not matter",
"While no time passes, nothing anybody does changes the rates at which a reserve's shares are bought, redeemed and owed (as they would be after accruing interest up to now), except a change of the take rate by the pool's admin. So if two accounts each send a submission of supplies, withdrawals, borrows and repayments in the same ledger, and both orders are accepted, then both get the same answers in either order, and all positions, reserves, auctions and token balances end up the same. Emissions are excluded: the first to use a reserve token nobody holds gets all its emissions since it was last used (finding).",
"every reachable state, list of operations within a ledger, reserve; every two submissions","ledgers order transactions freely; all interleavings and amounts must agree",["pool/src/pool/reserve.rs:load","pool/src/pool/submit.rs:execute_submit","pool/src/pool/actions.rs:build_actions_from_request","pool/src/emissions/distributor.rs:update_emission_data_with_config"])
p("C73","Earned pool emissions can be claimed",
"What the users of a pool have earned and not claimed, on all of its tokens, is at most what the pool has received from the backstop less what was claimed; the pool's unspent allowance on the backstop's BLND is exactly what it received less what was claimed, less allowances lost by expiry; and the backstop's BLND balance covers, over all pools together, these allowances, the emissions still recorded for pools and what depositors have not claimed. So a user who claims gets what he has earned, provided the pool's allowance has not expired and never was lost. The restriction is necessary (finding): the allowance granted by a pool's gulp_emissions expires after 120 days; from then on claims fail although the backstop holds the tokens, and the next gulp_emissions of the pool replaces the expired allowance instead of adding to it, so that users together, or one large user, can never claim all they earned.",
"every history from an initial state, every pool, user, list of reserve token ids","solvency of emissions depends on every gulp, claim and balance change of every user of every pool, and on 128-bit rounding",["pool/src/emissions/distributor.rs:execute_claim","pool/src/emissions/manager.rs:gulp_emissions","backstop/src/emissions/manager.rs:gulp_pool_emissions","backstop/src/emissions/claim.rs:execute_claim"])
p("C74","Administration touches nobody's funds",
"Whatever sequence of administrative calls is made on a pool (set_admin, update_pool, queue_set_reserve, cancel_set_reserve, set_reserve, set_status, update_status, set_emissions_config), by whomever and whether accepted or not: no token balance and no allowance changes, nothing changes in the backstop, the emitter, the factory or any other pool, every user keeps every position, every auction stays as it is, share supplies stay the same, exchange rates and the backstop credit do not fall, and nobody loses emissions he could claim. Unless the take rate is changed, the exchange rates as of now are exactly the same afterwards.",
"every reachable state, pool and finite list of administrative calls","an admin may make any sequence of calls with any arguments",["pool/src/contract.rs:set_admin, update_pool, queue_set_reserve, cancel_set_reserve, set_reserve, set_status, update_status, set_emissions_config","pool/src/pool/config.rs","pool/src/pool/status.rs","pool/src/emissions/manager.rs:set_pool_emissions"])
p("C75","Emissions are shared in proportion to balances",
"Take any history during which a user's balance of a reserve token, the supply of that token and the stream of emissions assigned to it stay the same and the user does not claim; anyone may make any other calls meanwhile. What the user can claim grows by the share balance/supply of the BLND the stream releases in that time, with an error, for each closing of the ledger, of at most one unit (1e-7 BLND) more than the number of whole tokens he holds. The error is per ledger and this is needed (finding): when the stream releases in one ledger less than one unit per whole token of the supply and somebody touches the reserve in each ledger - a claim of nothing by a stranger is enough - nobody earns anything, however long the stream runs.",
"every reachable state, history of any length with constant balance, supply and stream, user and token","the error depends on how often the reserve is touched over a history of any length",["pool/src/emissions/distributor.rs:update_emission_data_with_config, update_user_emissions, claim_emissions"])
p("C76","Backstop emission claims are exact and isolated",
"A claim from the backstop pays exactly the sum of what the claimer has earned at the pools he names, each pool counted once however often it is named, and afterwards he has nothing left to claim at those of them that have shares not queued for withdrawal. No call by anyone, and no passing of time, lowers what a depositor can claim, other than his own claim at that pool; and a call that takes no time changes it by nothing, as long as some share of the pool is not queued - with one exception (finding): a claim that somebody else has deposited for him raises it, as if the new shares had earned from the start.",
"every reachable state, call, pool and depositor","depends on every interleaving of deposits, queueing, distributions and claims of all depositors",["backstop/src/emissions/claim.rs:execute_claim","backstop/src/emissions/distributor.rs","backstop/src/backstop/deposit.rs","backstop/src/backstop/withdrawal.rs","backstop/src/emissions/manager.rs:gulp_emissions, set_backstop_emission_config"])
p("C77","Backstop emissions are shared in proportion to unqueued shares",
"Take any history during which a depositor's unqueued shares at a pool, the total of that pool's unqueued shares and the stream of emissions assigned to its depositors stay the same, and in which he does not claim there and is not credited with somebody else's claim; anyone may make any other calls. What he can claim grows by his part of the BLND the stream releases in that time, with an error, for each closing of the ledger, of at most one unit (1e-7 BLND) more than the number of whole shares he holds. The error is per ledger and this is needed (finding): when the stream releases in one ledger less than one unit per whole unqueued share and somebody touches the pool's emissions in each ledger - a claim of nothing by a stranger is enough - no depositor earns anything.",
"every reachable state, history of any length with constant shares and stream, pool and depositor","the error depends on how often the stream is touched over a history of any length",["backstop/src/emissions/distributor.rs:update_emission_data_with_config, update_user_emissions","backstop/src/emissions/claim.rs:execute_claim"])
p("C78","Backstop claims credit what was earned and can be made",
"A backstop claim converts exactly the BLND the claimer has earned at the pools he names into LP tokens; every pool named once is credited with its part of them, in proportion to what was earned there, the recipient receives shares for it at the price before the claim, and nobody else's shares, no withdrawal queue and no other token balance changes. The parts add up to the LP tokens bought, less than one unit per pool lost to rounding, if no pool is named twice. In histories in which the backstop is not replaced and made current again and depositors claim for themselves, everything depositors have earned is covered by what was allocated to their pool and by the backstop's BLND, and whoever claims receives all of it, unless a pool has emissions running while all its shares are queued, or has lost all its tokens. That no pool is named twice is necessary (finding): what was earned at a pool named twice is claimed and credited to nobody.",
"every reachable state, claimer, recipient, list of pools and amount of LP tokens; for the coverage every history of any length and every set of users and pools","the coverage is an invariant over all histories of deposits, queues, streams and claims; the split holds for lists of any length",["backstop/src/emissions/claim.rs:execute_claim", "backstop/src/emissions/distributor.rs:claim_emissions", "backstop/src/contract.rs:claim"])
p("C79","Distributions start exactly the documented emission streams",
"When the backstop distributes emissions, it distributes everything the emitter gave it since the last distribution (always more than an hour's worth). Each pool of the reward zone gets its proportion of the zone's unqueued tokens: 30% is recorded for the pool to collect, and 70%, together with what its previous stream has not paid, is paid to the pool's depositors over the next seven days; pools outside the zone are unaffected. The parts of the zone's pools add up to the whole, less at most a ten-millionth per pool, so no more than the amount distributed and almost all of it is handed out. When a pool collects its emissions the whole recorded amount is handed over and each configured reserve token gets exactly its configured part in the same way; streams of other tokens, and what anybody can claim at that moment, do not change. Restriction (finding): whatever part is not configured is handed over too, and is paid to nobody; anyone can trigger this before the pool's admin has configured any emissions.",
"every reachable state, every successful distribution and every successful collection, any reward zone, any previous streams","The amounts depend on arbitrary histories (earlier streams, shares and queued shares of every pool of the zone) and on truncating divisions; tests fix two or three pools with chosen numbers.",["backstop/src/emissions/manager.rs: gulp_emissions, set_backstop_emission_config, gulp_pool_emissions", "pool/src/emissions/manager.rs: gulp_emissions, do_gulp_emissions, update_reserve_emission_config"])
p("C80","Accounts and savings are safe while untouched",
"As long as a user signs nothing, no liquidation auction is open on the user's account, and the account owes nothing or its debt is covered (weighted collateral above weighted debt) at every point, no transaction of anybody else changes the account's deposits, collateral or debt, and no liquidation auction can be opened on it. For an account without debt this holds unconditionally over any history of other people's transactions, prices and defaults, and the underlying assets its deposits are recorded to be worth never decrease. Restriction (finding): the condition on open auctions is needed even for accounts without debt: repaying everything does not end a liquidation auction, and 400 ledgers after it was opened anyone can take the whole lot from the debt-free account for nothing, until its owner deletes the auction.",
"every reachable state, every account other than the backstop's, every finite history of transactions not signed by the owner, all reserves","It is a statement about what all other users together can ever do; tests run a few scripted counterparties.",["pool/src/auctions/auction.rs: create_liquidation, fill, delete_liquidation", "pool/src/auctions/user_liquidation_auction.rs: create_user_liq_auction_data, fill_user_liq_auction", "pool/src/pool/submit.rs: execute_submit", "pool/src/pool/actions.rs: build_actions_from_request", "pool/src/pool/bad_debt.rs: transfer_bad_debt_to_backstop"])
p("C81","Backstop deposits lose only to bad debt",
"A backstop deposit that its owner does not touch keeps its shares, and the LP tokens the shares (queued for withdrawal or not) are worth never decrease, whatever deposits, queuings, withdrawals, donations, claims, distributions, pool operations and auctions others run, as long as nobody fills a bad debt auction of that pool; filling one does take tokens from the depositors.",
"every reachable state, every initialized pool and every user, every finite history of transactions that the user did not sign and that contains no fill of a bad debt auction of this pool","Share price is a ratio that every deposit and withdrawal rounds; only an invariant over all interleavings shows that rounding never takes from the other depositors and that no other path reaches their tokens.",["backstop/src/backstop/deposit.rs: execute_deposit", "backstop/src/backstop/withdrawal.rs: execute_queue_withdrawal, execute_dequeue_withdrawal, execute_withdraw", "backstop/src/backstop/fund_management.rs: execute_draw, execute_donate", "backstop/src/backstop/pool.rs: PoolBalance", "backstop/src/emissions/claim.rs: execute_claim", "pool/src/auctions/bad_debt_auction.rs: fill_bad_debt_auction", "pool/src/auctions/backstop_interest_auction.rs: fill_interest_auction"])
p("C82","Events account for every backstop deposit",
"An indexer that sees nothing but published events can reconstruct every backstop balance exactly: replaying the events of any history on the balances before it (or, from the deployment on, on nothing) gives every user's shares, every entry of every user's withdrawal queue with its unlock time, and every pool's total shares, LP tokens and queued shares, including the deposits made by claims, and the draws and donations made by pools inside auction fills. No change of a balance is unreported, no event reports a change that did not happen, and failed transactions publish nothing.",
"every reachable state, every finite history of transactions of all contracts, every pool and user","Completeness and exactness of a log are statements about every code path that writes a balance; tests compare a few events with literals.",["backstop/src/contract.rs: deposit, queue_withdrawal, dequeue_withdrawal, withdraw, draw, donate, claim (events)", "backstop/src/emissions/claim.rs: execute_claim (event)", "pool/src/auctions/bad_debt_auction.rs: fill_bad_debt_auction", "pool/src/auctions/backstop_interest_auction.rs: fill_interest_auction", "backstop/src/backstop/user.rs: dequeue_shares"])
p("C83","Events account for every position and auction",
"An indexer that sees nothing but the published events of a pool, with the ledger of each, can reconstruct every account of that pool (shares supplied, shares of collateral, debt shares, per reserve) and knows every live auction exactly: replaying the events of any history on a right book (or, from the deployment on, on an empty one) gives a right book. A fill event determines what the filler took and owes, what the liquidated user or the backstop lost, and the rest of the auction, provided its amount is read modulo 2^64 (finding: the event carries the 128-bit amount of the request, of which the pool uses only the low 64 bits). An auction whose storage entry expired stays in the book: expiry publishes nothing.",
"every reachable state, every pool, every finite history of transactions of all contracts","Completeness and exactness of a log are statements about every code path that writes a position or an auction; tests compare a few events with literals.",["pool/src/pool/actions.rs: build_actions_from_request (events)", "pool/src/pool/bad_debt.rs: transfer_bad_debt_to_backstop (event)", "pool/src/auctions/bad_debt_auction.rs: fill_bad_debt_auction (event)", "pool/src/contract.rs: new_liquidation_auction, new_bad_debt_auction, new_interest_auction (events)", "pool/src/auctions/auction.rs: fill, scale_auction"])
p("C84","Events account for the tokens of a pool",
"Over any history a pool's holdings of every token change exactly by what its events say: plus the amounts of supply, supply collateral and repay events (after refunds), minus those of withdraw, withdraw collateral and borrow events, minus the sold lot of each interest auction fill (known from the replayed book of C83). No transaction of anybody else can lower them. They can only be higher than the events say by tokens that others send the pool unasked: direct transfers and mints, payouts and claims that name the pool as receiver, emissions or drops directed at it; without such gifts the equality is exact.",
"every reachable state, every initialized pool, every token, every finite history of transactions of all contracts","It must hold for every code path that moves tokens and every interleaving; tests compare balances after single calls.",["pool/src/pool/submit.rs: execute_submit, handle_transfers", "pool/src/pool/actions.rs: build_actions_from_request, Actions", "pool/src/auctions/backstop_interest_auction.rs: fill_interest_auction", "pool/src/auctions/bad_debt_auction.rs: fill_bad_debt_auction", "pool/src/emissions/distributor.rs: execute_claim"])
p("C85","Value is conserved; no more is lent than was supplied",
"In every reserve the surplus - tokens held, plus outstanding debt, plus debt burned, minus supplier claims and backstop credit - never falls (C03), and no transaction that is not an unasked gift of tokens to the pool raises it by more than the dust of its roundings: when the reserve accrues interest for the first time in a ledger, one token plus a billionth of a token per supply token; per supply or withdrawal of the reserve the worth of one supply token; per borrow or repayment of it twice the worth of one debt token; per bad-debt fill one token. So over any history without gifts value is conserved up to the sum of that dust, and the debt (plus what is held and what was burned) exceeds what suppliers and the backstop can claim by at most what the pool's address held at the start plus the dust: the invariant that the project's fuzzer asserts. The exclusion of gifts is necessary: after a direct transfer to the pool, suppliers can withdraw lent tokens and the debt ends up above supply and credit together.",
"every reachable state, every pool and reserve, every transaction and every finite history of transactions of all contracts","The fuzzer samples short histories; the bound must hold for every history, every amount and every rounding.",["pool/src/pool/reserve.rs: Reserve::load, to_b_token_down, to_b_token_up, to_d_token_down, to_d_token_up", "pool/src/pool/actions.rs: build_actions_from_request", "pool/src/auctions/bad_debt_auction.rs: fill_bad_debt_auction", "pool/src/auctions/backstop_interest_auction.rs: fill_interest_auction", "test-suites/fuzz/fuzz_targets/fuzz_pool_general.rs: the assertion after each run"])
p("C86","Temporary entries live long enough; unfillable interest auctions block for 45 days",
"Auctions, queued reserve changes and the backstop's drop list are temporary storage entries, which the network removes when their lifetime runs out. Every auction outlives its useful life: the network may not remove one before 45 days of ledgers (777600) after its first block. A queued reserve change stays exactly as it was queued for 100 days of ledgers unless the admin cancels it or it is executed (it cannot be replaced meanwhile), and the drop list stays for 100 days after the backstop's initialization. The price: an interest auction that was not filled within its 400 ledgers, which can then be neither filled nor removed (C26), blocks any new interest auction of that pool until at least 45 days of ledgers after its first block; if nobody pays for extensions of its lifetime it can expire 46 days and 400 ledgers after it at the latest, and anybody can keep it, and so block the pool's interest auctions, for as long as they pay.",
"every reachable state with lifetimes: every history of transactions, clock changes and paid lifetime extensions in which the host removes a temporary entry only after its last ledger; every network minimum for new entries","The lifetime of an entry depends on every write and extension of it in the history; unit tests run with one ledger configuration and do not wait 45 days.",["pool/src/storage.rs: LEDGER_THRESHOLD_SHARED, LEDGER_THRESHOLD_USER, set_auction, del_auction, set_queued_reserve_set", "backstop/src/storage.rs: set_drop_list", "pool/src/auctions/auction.rs: create_interest_auction, fill", "pool/src/pool/config.rs: execute_queue_set_reserve"])
p("C87","Only pools deployed by the factory hold anything in the backstop",
"An address that the backstop's pool factory did not deploy (for instance a copy of the pool's code somebody installed and initialized himself with the same backstop) never holds anything in the backstop: no tokens and no shares, no shares or queued shares of any user, no place in the reward zone, no emission stream, no emissions recorded for it and no allowance on any of the backstop's tokens; and every deposit, donation, reward zone request, withdrawal, emission hand-over, non-empty queueing, dequeueing and draw for it fails.",
"every reachable state, address and token, every signer, user and amount","The statement is about everything that can have happened before: every history of calls of users, pools, impostor pools, the emitter and the factory, including claims and fills that write the records of several pools at once.",["backstop/src/backstop/pool.rs: require_is_from_pool_factory", "backstop/src/backstop/deposit.rs: execute_deposit", "backstop/src/emissions/manager.rs: add_to_reward_zone, gulp_emissions, gulp_pool_emissions", "backstop/src/emissions/claim.rs: execute_claim"])
p("C88","The event log accounts for the BLND of the backstop",
"Over any history, the BLND the backstop holds is at least what it held before plus what the events published meanwhile say it received (the emitter's distributions to it and its part of drops) minus what they say was paid out (claims of pools' users and of the backstop's depositors); in particular no BLND ever leaves it without an event. It is exactly that unless some transaction left BLND with the backstop unasked: BLND sent or minted to it, a borrow, withdrawal or claim whose recipient is the backstop, a claim of a pool not set up with this backstop and BLND, or the replacement of the backstop at the emitter.",
"every reachable state and every sequence of transactions, whenever at the end the backstop is initialized, the emitter's BLND is the backstop's and the backstop token is another token","An accounting identity over whole histories that mix the emitter, the factory, the backstop, pools and the token; a test looks at the events of one call.",["emitter/src/contract.rs: distribute, swap_backstop, drop", "emitter/src/emitter.rs: execute_distribute", "backstop/src/emissions/claim.rs: execute_claim", "pool/src/contract.rs: claim", "pool/src/emissions/distributor.rs: execute_claim"])
p("C89","The configuration of a pool can be replayed from its events",
"Whoever knows the settings of a pool at one moment (admin, take rate, position limit, status, the list of reserves with their parameters, the queued reserve changes, the rate and end of every emission stream) and reads only the events published after it knows them at every later moment: replaying set_admin, update_pool, set_status, queue_set_reserve, cancel_set_reserve, set_reserve and reserve_emission_update events of that pool in order, and ignoring every other event, gives the pool's settings..",
"every reachable state, every pool initialized in it, every settings that describe it there and every later sequence of transactions of anybody","A replay statement over whole histories: it says no transaction changes a setting without publishing the change, and no event describes a change that did not happen; a test compares the events of one call with literals.",["pool/src/contract.rs: set_admin, update_pool, queue_set_reserve, cancel_set_reserve, set_reserve, update_status, set_status", "pool/src/pool/config.rs", "pool/src/pool/status.rs", "pool/src/emissions/manager.rs: gulp_emissions, set_reserve_emissions"])
p("C90","Who takes part can be replayed from the events",
"Whoever knows at one moment which pools the factory has deployed, the reward zone in order, the emitter's backstop, its token and the queued swap, which backstops have had their drop and when each was last distributed to, and reads only the events published after it with the times of their ledgers, knows all of it at every later moment: deploy adds a pool; rw_zone puts the new pool in front of a zone with room and else in the place of the one it names; q_swap, del_swap and swap do what they say, swap also counting as a distribution to both backstops; drop marks the current backstop; distribute dates its backstop; every other event changes none of it.",
"every reachable state with an initialized emitter, every roster that is right about it and every later sequence of transactions of anybody","A replay statement over whole histories of all contracts: nothing of this changes without an event and no event says what did not happen; a test compares the events of one call with literals.",["pool-factory/src/pool_factory.rs: deploy", "backstop/src/contract.rs: add_reward, drop", "backstop/src/emissions/manager.rs: add_to_reward_zone", "emitter/src/contract.rs: distribute, queue_swap_backstop, cancel_swap_backstop, swap_backstop, drop", "emitter/src/backstop_manager.rs"])
p("C91","What can endanger an account",
"An account whose weighted collateral exceeds its weighted debt and on which no liquidation auction is open can become liquidatable only through its owner, the passing of time, a price that turns against it, a change of the take rate, or a queued reserve change taking effect. As long as none of these happens, whatever others deposit, borrow, repay, liquidate or administer, in this pool and elsewhere, and whatever the oracle reports that is no worse for this account than before (no less for its collateral, no more for its debts), its positions stay, its weighted collateral does not fall, its weighted debt does not rise, and nobody can open a liquidation auction on it.",
"every reachable state, pool and account with covered debt and no open auction, every sequence of other people's transactions within a ledger and of oracle updates that are not worse for the account","Quantifies over all histories of other people's transactions and over all oracles; a test takes one account through one price change.",["pool/src/pool/health_factor.rs: calculate_from_positions, is_hf_over, is_hf_under", "pool/src/auctions/user_liquidation_auction.rs: create_user_liq_auction_data", "pool/src/pool/reserve.rs: load_reserve"])
p("C92","How fast a debt grows over a history",
"Over any history the dToken rate of a reserve, and with it every loan, grows no faster than by the highest yearly rate of the curve that the history passes through times the time passed (as simple interest on the final rate), plus 2e-9 for every transaction that brings the interest up to date; and no slower than by the lowest rate passed through times the time passed less 1e-9 years per update (as simple interest on the first rate). While the utilization is at most 100 percent the rate never exceeds ten times the sum of base rate, first and second slope, plus the third slope, whatever has happened before.",
"every reachable state, pool, reserve and history of transactions of anybody, including failed ones and configuration changes","Quantifies over all histories and all ways to split a stretch of time into updates; a test accrues once or twice.",["pool/src/pool/interest.rs: calc_accrual", "pool/src/pool/reserve.rs: Reserve::load"])
p("C93","Someone who signs nothing owes no more than the interest",
"Over any history in which an account signs nothing it never comes to owe more dTokens of any asset, and what it owes of an asset grows by no more than the interest of C92, however many liquidations, auctions, bad-debt transfers and configuration changes the history contains. The one exception is the backstop, which takes over bad debt.",
"every reachable state, pool, account other than the backstop, asset and history of transactions that the account does not sign","Quantifies over all histories of everybody else; a test follows one account through a few calls.",["pool/src/pool/submit.rs: execute_submit", "pool/src/auctions/auction.rs: fill", "pool/src/pool/bad_debt.rs: transfer_bad_debt_to_backstop", "pool/src/pool/interest.rs: calc_accrual"])
p("C94","How long an account stays safe",
"Take values for the dTokens of an account's debts at which its collateral, counted without any further interest on it, still covers them. As long as the current dToken values stay below these, no quote turns against the account and no queued reserve change of the pool takes effect, nobody can start a liquidation of it or change its positions, however much time passes and whatever everybody else does. The dToken values do stay below them for as long as the interest of C92, at the highest rate passed through and with 2e-9 for each update, does not use up the margin: an account with enough margin for a time is safe for that time.",
"every reachable state, pool, account with no open auction, and history (with time passing) of transactions that the account does not sign, oracle updates that are not worse for it and take-rate changes","Quantifies over all histories, all lengths of time and all utilization paths; a test jumps over one interval.",["pool/src/pool/health_factor.rs: calculate_from_positions", "pool/src/pool/interest.rs: calc_accrual", "pool/src/auctions/user_liquidation_auction.rs: create_user_liq_auction_data", "pool/src/pool/reserve.rs: load"])
p("C95","A fresh loan is not liquidated in the ledger in which it is taken",
"After a submit that borrows, withdraws collateral or takes over a position, of an account left with debt and without an open auction, nobody can start a liquidation of the account or change its positions in the same ledger, unless its owner acts, a quote turns against it, or the pool's configuration is changed; provided that the pool's oracle has at least five decimals.",
"every reachable state, pool, account, successful risk-increasing submit and sequence of other people's transactions within the ledger","Quantifies over all submits, all positions near the limit and all transactions that may follow; a test checks one loan at one price.",["pool/src/pool/submit.rs: execute_submit", "pool/src/pool/health_factor.rs: is_hf_under, is_hf_over", "pool/src/auctions/user_liquidation_auction.rs: create_user_liq_auction_data"])
p("C96","Interest too small for the suppliers' rate is lost to them",
"A transaction that updates a reserve whose interest for the suppliers, after the backstop's share, is less than a thousand-millionth of their bTokens leaves the bToken rate unchanged, although every loan has grown; over a history in which every update is that small the suppliers earn nothing, whatever the borrowers come to owe.",
"every reachable state, pool, reserve and successful transaction and, for the second part, every history of any length","Quantifies over all reserves, rates and update schedules; a test accrues once over a long time, where the loss does not show.",["pool/src/pool/reserve.rs: Reserve::load", "pool/src/pool/interest.rs: calc_accrual"])
p("C97","Rounding costs less than one share per request",
"A submit of supplies, withdrawals, borrowings and repayments costs the account at most the tokens that left it plus, for each request, less than the price of one bToken (supply, withdraw) or one dToken (borrow, repay); in particular a supply is credited in full and a loan charged exactly, up to less than one share.",
"every reachable state, pool, account, reserve and successful submit of any list of such requests with any amounts","Quantifies over all request lists, amounts and rates; a test rounds at a few chosen rates.",["pool/src/pool/actions.rs: build_actions_from_request", "pool/src/pool/reserve.rs: Reserve::to_b_token_down, to_b_token_up, to_d_token_down, to_d_token_up"])
with open(os.path.join(os.path.dirname(__file__),'..','properties.jsonl'),'w') as f:
    for x in P: f.write(json.dumps(x)+"\n")
print(len(P))
