# Formal model of blend-contracts in Rocq (Coq 8.16.1)

## 1. Technique

A shallow functional model of the four contracts (emitter, backstop, pool
factory, pool) written in Gallina over `Z`, with explicit machine-integer
range checks (the release profile of /repo has `overflow-checks = true`, so
every overflow is a trap, i.e. a failed call).  A contract call is a function
`context -> state -> res (value * state)`; `Err` means that the transaction
reverts and the ledger is unchanged.  A *world* (`World.v`) holds the ledger
time and sequence number, all token balances and allowances, the oracle, the
storage of emitter, factory and backstop and the storage of every installed
pool (any number of pools).  A *step* is any top-level call with any arguments
and any set of signers, or an environment action (time passes, the oracle
changes arbitrarily, LP supply changes, third parties move tokens, temporary
entries expire, anyone installs the pool code).  Properties over histories are
proved by induction over lists of steps of arbitrary length from any initial
world (`reachable`).

The main technical device for the pool: the contract works on a cache of
reserves and on a loaded copy of user positions.  `PoolTrace.v`/`PoolSim.v`/
`PoolReq.v` prove that each request equals a sequence of elementary moves of the
*stored* state (`flush`), so the invariants (`PoolInv.v`) and the property
theorems speak about storage only.

## 2. Trusted base

* **Coq's kernel.**  `Print Assumptions` answers *Closed under the global
  context* for **every** theorem named in MANIFEST.json: no axioms at all, not
  even of the standard library.  (`tools/assumptions.sh` prints them.)  The gate lists
  seven `Coq.ssr.ssrunder.Under_rel.*` declarations because std++ loads ssreflect;
  they are parameters of a standard-library module in a loaded file, and no
  theorem here depends on them.
* **The hand translation Rust -> Gallina.**  Each definition cites the file and
  lines it models.  `Tests*.v` replays on the model all
  of the project's own unit tests of the four contracts: every active `#[test]` under `pool/src`,
  `backstop/src`, `emitter/src` and `pool-factory/src`, about 325 in all, inputs and expected values
  copied (tests of fidelity, not proofs of properties); no number had to be changed.  `TestsSuite.v` replays
  all the integration tests under `test-suites/tests` on the whole model, each as one history from
  deployment on, with the events they look at: every amount they assert to the last digit (a claim after a
  year, the debt left after a chain of auctions) comes out the same.
* **`soroban-fixed-point-math` 1.x**: its source is not in the sandbox; modelled as
  documented (`x*y` computed in i128, trap on overflow, floor / ceil division,
  trap on zero divisor).
* **Soroban host semantics**: a failed call reverts everything; `Map` iterates in key
  order; `require_auth` succeeds iff the address signed or is the calling
  contract; values have the declared integer types; ledger time and sequence
  never decrease; temporary entries may disappear at any time (`Ttl.v` adds their
  lifetimes: an entry disappears only after the last ledger `extend_ttl` gave it); contracts are not
  re-entered.
* **Tokens** are standard SEP-41 tokens / Stellar asset contracts: no fee on transfer, no
  clawback, no freezing (`Token.v`).
* **Comet** (the LP AMM) and the **oracle** are environments: any answers of the
  declared types, changing arbitrarily between steps.  The LP deposit made by the
  backstop's `claim` mints an arbitrary amount chosen by the environment (the
  parameter `lp_out` of the operation).
* **Pool addresses**: the host derives a deployed pool's address by hashing; the model
  uses an injective encoding (collision freedom).  Pools have negative
  addresses, the system contracts and the BLND token have addresses 0..3,
  accounts and third-party contracts have addresses above 3.

### 2.1 Modelled code

Every non-test function of these files is modelled, function by function:

| crate | files | model |
|---|---|---|
| emitter | contract.rs, emitter.rs, backstop_manager.rs, storage.rs | Emitter.v |
| pool-factory | pool_factory.rs, storage.rs | Factory.v, World.v (`ODeploy`) |
| backstop | contract.rs, backstop/{deposit,fund_management,pool,user,withdrawal}.rs, emissions/{claim,distributor,manager}.rs, storage.rs | Backstop.v |
| pool | pool/{interest,reserve}.rs, validator.rs | PoolReserve.v |
| pool | pool/user.rs, emissions/distributor.rs | PoolUser.v, PoolEmis.v |
| pool | pool/{health_factor,pool}.rs | PoolHealth.v |
| pool | auctions/*.rs, pool/status.rs (threshold) | PoolAuction.v |
| pool | pool/{actions,submit,bad_debt}.rs | PoolSubmit.v |
| pool | emissions/manager.rs | PoolEmis.v |
| pool | pool/{config,status}.rs, contract.rs | PoolAdmin.v, World.v (`p_exec`) |
| all | every `e.events().publish(..)` | Events.v |

Getters are the projections the theorem statements use as observers
(`get_positions`, `get_auction`, `user_balance`, `pool_data`, `get_last_distro`, ...).

### 2.2 Not modelled

Events published by token contracts, Comet and oracles; TTL bumping and archival of persistent entries (the lifetimes of temporary entries are modelled in `Ttl.v`; a persistent entry is
assumed to be restored when needed); CPU and memory limits; wasm code, its
deployment and the pool's name string; re-entrancy (forbidden by the host); the internals of
Comet and of oracles; tokens with other than standard behaviour; `mocks/`,
`test-suites/`, `blend-contract-sdk/`, scripts.  Simplifications local to one
definition are stated in the comment of that definition.

## 3. Files (rocq/theories)

| file | content |
|---|---|
| Base.v | result type, checked i128/u64/u32 arithmetic, fixed point maths |
| Types.v | contract storage as records |
| Token.v, Emitter.v, Factory.v, Backstop.v, PoolReserve.v, PoolUser.v, PoolHealth.v, PoolAuction.v, PoolSubmit.v, PoolEmis.v, PoolAdmin.v | the contracts, function by function |
| World.v | top-level operations, execution, histories, reachability |
| Events.v | the events each call publishes, the event log of a history |
| Spec.v | vocabulary of the property statements (sums over histories and holders, API observers), independent of the contracts' code |
| Facts.v, XMove.v, FrameFacts.v, PoolFrame.v, PoolCfg.v | inversion lemmas, arithmetic, frame facts, configuration invariant |
| PoolAccrue.v, AuctionFacts.v | facts about interest accrual and auction scaling |
| PoolTrace.v, PoolSim.v, PoolReq.v, PoolHF.v, PoolOps.v, PoolLiq.v, PoolReach.v, PoolTx.v | pool calls as moves of the stored state |
| PoolInv.v | invariant of a pool's storage |
| PoolEmisInv.v, PoolEmisTx.v, PoolSolv.v | emission accounting and solvency |
| PoolLive.v | lemmas that functions do not fail (liveness) |
| BackMoves.v, BackInv.v, BackEmis.v | the backstop as labelled moves, its invariants, its emissions |
| PropsEmitter.v, PropsAdmin*.v, PropsBackstop*.v, PropsPool*.v, PropsToken.v, PropsEvents*.v | the property theorems |
| Scenario.v, ScenarioPool.v | a concrete deployment and history, evaluated by the kernel |
| Examples*.v | concrete reachable cases that meet the hypotheses of the theorems; refutations of over-optimistic claims |
| Tests*.v | the project's unit tests replayed |
| TestsSuite.v | the project's integration tests (test-suites/tests/*.rs) replayed on the whole model, with their events |

## 4. Properties that are false of the code

Where the natural statement of a property is false of the code, properties.jsonl
states the true restricted property *and* that the restriction is needed; both
are proved (`Cxx_...` and `Cxx_restriction_needed`, the latter with a concrete
reachable world).  Findings:

* C11: the utilization cap is checked by the borrow request, not at the end of the submit.
* C19: `amount as u64` wraps: a fill request of 2^64+50 fills 50%.
* C25: an interest auction's lot is fixed at creation but credited interest is only
  accrued at the fill, at the take rate then in force; a lowered take rate can
  make the credit negative.  The 200 minimum counts duplicate assets twice.
* C26: an interest auction unfilled for 400 ledgers cannot be filled (zero bid
  donation is rejected) nor replaced until its storage entry expires.
* C27: dust collateral makes a debt neither liquidatable nor transferable to the
  backstop; at some prices no liquidation percentage is accepted.
* C44: the backstop's claim credits shares to `to` without updating the emissions of `to`.
* C45: queued withdrawals cannot be dequeued when no unqueued share is left
  and emissions are running (division by zero).
* C48: a backstop swapped out and back in allocates BLND minted to the other one.
* C56: r_base+r_one+r_two may overflow u32 above 95% utilization; from then on the reserve is locked for ever.
* C59: the elapsed time is rounded down to 1e-9 years (about 0.03 s), so a reserve accrued every second earns up to 2.2% less interest.
* C63: one pool of the reward zone with all its shares queued makes `gulp_emissions` trap for every pool; more than a day after
  the last gulp it cannot be taken out of the reward zone either, so only a withdrawal (3 weeks later) unblocks emissions.
* C65: while an auction of all of a user's debt is open, repaying one unit makes fills of 100% fail in the first 200 ledgers; smaller percentages work.
* C66: depositors who withdraw after a bad debt auction was created leave an auction nobody can fill and that blocks a new one; a partial
  fill that burns the remaining debt leaves the rest of the auction: unfillable until its 400th ledger, then the rest of the lot is free.
* C67: debts and collateral whose value rounds to 0 cannot be liquidated or auctioned; pools whose backstop tokens are worth nothing
  cannot open interest or bad debt auctions.
* C68: a liquidation auction filled late (after 200 ledgers) can leave the user with a worse health factor than before: the whole lot
  is handed out for a shrinking part of the debt. A new auction of the rest is then possible.
* C72: emissions of a reserve token that nobody holds go to the first user to hold it: whoever comes first in the ledger gets the emissions of the whole idle time.
* C73: the allowance a pool draws claims from expires 120 days (2073600 ledgers) after the pool's last gulp_emissions: then all claims from that pool fail, for good if the pool is no longer in the reward zone; and a later gulp_emissions reads the expired allowance as 0 and replaces it, so that what was not claimed in time is missing from then on.
* C75: the emission index of a reserve token has 7 decimals of BLND per whole token, and each touch of the reserve floors its increment and resets the clock: with eps = 114285 units a second and 600 000 whole tokens supplied, a claim of nothing by a stranger in each ledger (5 s) makes every increment 0 and the suppliers earn nothing for as long as this goes on; the BLND stays in the backstop unassigned. Even without an attacker a busy reserve loses up to one unit per whole token per ledger.
* C76/C77: the same happens in the backstop: with 666 666 units a second and 4 000 000 unqueued shares a claim of nothing in each ledger leaves the depositors without any emissions. (In all, the backstop gets 0.7 BLND a second, so the limit is about 35 million shares in the reward zone.)
* C37 needs a backstop token other than BLND; C39 the first depositor can be front-run by a donation.
* C78: `claim` of the backstop remembers the amount claimed per pool in a map that a second mention of the pool overwrites with the 0 then left to claim. The BLND earned at a pool named twice is converted to LP tokens that are credited to nobody (ExamplesBackstop4: over four fifths of a claim lost).
* C79: anyone can call a pool's `gulp_emissions`. The backstop hands over everything recorded for the pool, and the part for which no reserve token is configured is assigned to nobody; before the admin's first `set_emissions_config` that is all of it, and nothing is left to collect afterwards (ExamplesPool16: a stranger burns a pool's first day of emissions).
* C80: repaying all debt does not end a liquidation auction. 400 ledgers after it was opened the bid is zero and the lot is full, and nothing in `fill` looks at the account's debt or health, so anyone takes the collateral of a debt-free account for nothing unless its owner has sent the explicit delete request (ExamplesPool17: a stranger without any position takes half of alice's collateral after she has repaid everything).
* C83: the event of a fill carries the i128 amount of the request, but the pool fills `amount as u64` percent: an indexer that takes the amount at face value computes nonsense for an amount of 2^64+50, which fills 50% (same cause as C19).
* C85: the invariant `total supply + backstop credit > total liabilities` asserted by the project's fuzz target is not an invariant of the code once tokens are sent to the pool directly: with donated cash suppliers can withdraw tokens that are lent out and the backstop's credit can be paid out, leaving the debt above supply plus credit (`ex_C85_gift`). Without gifts it holds up to the explicit dust of C85.
* C86: an interest auction nobody filled within 400 ledgers (33 minutes) blocks all interest auctions of its pool for at least 45 days (`ex_C86_blocked`), and for longer if anybody pays for the entry's lifetime (`ex_C86_paid`). Nothing in the contract can remove it.
* C88: `swap_backstop` (emitter/src/contract.rs 131-136, backstop_manager.rs 66-91) first distributes to the old backstop everything emitted since the last distribution, but publishes only the `swap` event, so an archive of events misses that payment (`C88_swap_pays_silently`: 2,678,400 BLND after 31 days).
* C89: `set_emissions_config` (pool/src/contract.rs 371-376) publishes no event, so the shares of a pool's emissions cannot be followed from its events (`C89_emission_shares_unpublished`); `initialize` publishes nothing and the factory's `deploy` event carries the address only, so two deployments with different take rates look alike (`C89_first_settings_unpublished`).
* C90: `add_reward` (backstop/src/contract.rs 288-294) publishes the caller's `to_remove` even when the reward zone has room and nothing is removed (manager.rs 38-40), so the event may name a pool that stays in the zone; in two states with the same zone the same event has different effects (`C90_zone_event_ambiguous`).
* C91: each excluded cause is necessary: three years of interest at constant prices, a worse price and a queued lower collateral factor (which anybody may put into effect after a week) each make an untouched account liquidatable (`ex_C91_causes`).
* C92: every update of a reserve rounds the accrual factor and then the rate up at the ninth decimal, so that each update may add 2e-9 to every debt on top of the curve. At low rates this dominates: twenty updates, one in each second, raise the rate by 40 units where a single one raises it by 4 and the curve by less than 3 (`ex_C92_rounding`). Anybody can cause the updates by supplying dust; at one per 5-second ledger they come to about 1.3 percent a year.
* C93: the backstop has to be excepted: without signing anything it takes over the debt that a liquidation leaves without collateral (`ex_C93_backstop`).
* C94: the margin has to be measured without future interest on the collateral: a higher take rate lowers the interest that suppliers have gathered but nobody has booked (C72, C91), so only the stored bToken rates are safe.
* C95: the required health factor of 1.00001 is computed in the oracle's decimals and rounded down, and an account may be liquidated at a health factor of exactly 1. With an oracle of fewer than five decimals a loan can be taken for which anybody can liquidate the borrower at once (`ex_C95_few_decimals`).
* C96: anyone can force an update in every ledger by supplying dust. At a borrow rate of 0.44% a year forty updates five seconds apart raise the loans' rate and leave the suppliers' rate where it was, whereas one update after the same 200 seconds pays them (`ex_C96_finding`, hypotheses computed in `ex_C96_small`).
* C97: the loss is real but bounded: at a bToken price of 1.017 a supply of 2 units is credited 1.017 (`ex_C97_supply`); a supply too small for one bToken is refused (`ex_C97_dust`).
* Others noted while modelling: l_factor 0 is allowed (unliquidatable debt);
  a config queued in setup status can be executed by anyone at any later
  time; `update_pool` does not check `max_positions`; convert_to_shares traps when
  a pool's backstop has shares but no tokens; a partial fill of a bad-debt auction that burns debt
  leaves an unfillable remainder.

## 5. Testing the theorems against wrong programs

`seeded/mutations*.json` lists edits of the model that realistic bugs would make;
`seeded/mutate.py` applies each in a scratch copy, rebuilds (keeping on after a failing file) and records which
lemmas fail and which manifest theorems are lost; `seeded/LOG.jsonl` has one line per attempt,
with what was tightened.  A theorem that is lost because a lemma below it
no longer proves is reported with that lemma; `tightened` lists the theorems strengthened because a
wrong program left their claim standing.

## 6. Plan per property (written before the proofs; all carried out)

| id | modelled | proof method |
|---|---|---|
| C01 | positions, reserve data, all request types, fills, bad debt | invariant (sum over finite map) by induction over steps; in-flight caches handled by a simulation relation between cached and stored reserves |
| C02 | same | invariant |
| C03 | reserves + token balances + burns as outputs | invariant with ghost sum of burned debt from outputs |
| C04, C05 | interest accrual | invariant / per step monotonicity; needs take rate < 100% (C52) |
| C06, C07, C13 | build_actions + submit | induction over the request list |
| C08 | health factor | Hoare style post-condition of submit |
| C09, C10, C11 | build_actions | induction over the request list |
| C12 | whole pool contract | per step theorem, case analysis over operations |
| C14, C15 | Reserve load / interest | arithmetic |
| C16 - C22 | auctions | arithmetic for scale_auction; post-conditions of create / fill / delete |
| C19 | `amount as u64` truncation | refuted by a concrete run; proved for amounts < 2^64 |
| C23 - C25 | bad_debt, bad debt and interest auctions | post-conditions |
| C26, C27 | same | refuted by concrete reachable runs; positive part proved where true |
| C28, C29, C32, C35 | config, storage | invariant over histories |
| C30, C31 | status, thresholds | case analysis; saturation lemma |
| C33, C34 | pool emissions | potential function over histories |
| C36, C40, C42 | backstop balances | invariant over histories |
| C37, C39, C41 | backstop tokens | invariant; arithmetic on rounding |
| C38 | queue | history invariant with ghost queue-time sums |
| C43, C46, C47 | backstop emissions | post-condition + history |
| C44 | backstop claims | refuted in general (claim crediting a third party), proved for runs where `to = from` |
| C45 | zero unqueued shares | refuted by concrete run; positive part: works when unqueued shares > 0 |
| C48 | distribution times | refuted with swap back, proved without |
| C49 - C51 | emitter | history invariant |
| C52 | factory + pool initialize | history invariant |
| C53, C54 | backstop withdrawal queue | totality of each step of the call under the stated conditions (PropsBackstop5) |
| C55 | submit with one request | totality of each step under the stated conditions (PropsPool16) |
| C56 | interest accrual | totality of accrue; for the lock, induction over later histories (PropsPool15) |
| C57 | price loads | post-conditions of health checks and auction creation (PropsPool17) |
| C58 | submit | induction over the requests (PropsPool18) |
| C59 | accrual | exact rational specification of the curve, error bounds of each rounding (PropsPool19) |
| C60 | submit, health check | totality: step through the request, the valuation with a changed cached reserve equals that of the stored state (PropsPool20) |
| C61 | initialize of all contracts | exact effect as an equivalence; wiring unchanged by every step (PropsAdmin3) |
| C62 | administration calls | equivalences: success iff the documented conditions, with the exact new state (PropsAdmin2) |
| C63 | backstop deposit, withdrawal queue, gulp_emissions | equivalences: success iff the documented conditions; an invariant over histories for the blocked pool (PropsBackstop6-8) |
| C64 | all transactions | frame lemmas of every transaction; relational proof that a pool call reads outside its storage only prices, its own backstop record and the balances of payer, receiver and pool (PropsPool21) |
| C65 | submit with a fill | totality of the four position loops of a fill (invariant on storage, cache and emissions while positions move) and of the health check with many cached reserves; converse from C20; concrete refutation of the unrestricted claim (PropsPool22, ExamplesPool7) |
| C66 | submit with a bad debt fill | as C65, with totality of the draw and of the burn of the remaining debt (a second pass over emissions already settled); converse from C24; two concrete refutations of the unrestricted claim (PropsPool23, ExamplesPool8) |
| C67 | the three calls that open auctions | necessity by inverting the creation functions with the exact estimate formula; sufficiency by totality of valuation, quotes, removal loops (the `mid` invariant of C65, started from the cache a valuation leaves) and the second valuation from a cache that holds more prices (PropsPool24-26, ExamplesPool9) |
| C68 | the values of a liquidation auction's lot and bid; a full fill in a later state | from the exact lot and bid of C67, rounding bounds for the value of a part of a holding; monotonicity of the weighted values; fill amounts of C20 (PropsPool27, ExamplesPool10) |
| C69 | balances, allowances and totals of every token under every operation | case analysis over all operations; pool calls through their external moves (XMove); induction over histories (PropsToken, ExamplesToken) |
| C70 | a submission of a list and the two submissions of its parts | each request is a deterministic function of the pool state and of everything outside the pool but balances, and changes balances by amounts that do not depend on them (areq_det); induction over requests (PropsPool28, ExamplesPool11) |
| C71 | wallets and positions of a group of accounts over several pools, plain submissions and price changes in one ledger | induction over the transactions with C06, C13 and constant rates (PropsPool29, ExamplesPool12) |
| C72 | the current rates of a reserve over one ledger; two plain submissions in both orders | every move keeps the accrued rates; a submission's effect on reserves and wallets as a sum that depends on the rates and the sender's own position only, sums commute (PropsPool30, ExamplesPool13) |
| C73 | claimable amounts of all users and tokens, the pool's allowance on the backstop's BLND, the backstop's BLND balance, over every history | the emission invariant of C33 strengthened to what is claimable now (index advanced to the present); an exact ledger of the allowance entry over all operations; a solvency invariant of the backstop's BLND over all operations (with C44, C48); totality of claim. Restriction necessary: counterexamples C73_expired_allowance, C73_lost_allowance (PropsPool31, PropsBackstop9, PropsPool32, PropsPool33, ExamplesPool14) |
| C74 | lists of administrative calls on one pool; observed: everything outside the pool, other pools, positions, auctions, reserves, rates as of now, claimable emissions | per call: the frame of each configuration function, set_reserve accrues only; induction over the list; C72 for the rates (PropsAdmin4, ExamplesAdmin2) |
| C75 | claimable amount of a user over a history in which his balance, the supply, the unit and the stream are constant in every state and he does not claim | per step: a tick moves the index by a difference of two floors, any other call leaves the claimable amount (C34); induction over the history with the released time additive; the finding by a concrete history and by a theorem on ticks that release less than one unit per whole token |
| C76 | what a depositor can claim at a pool, as of now, from the public balances, stream and index; every call | the emission moves of BackEmis extended with: shares change only when the pool's stream is settled (or the pool had no unqueued share), and only named pools of the claimer are claimed; each move keeps the index as of now and every other depositor's claimable amount; the claim loop by induction with repeated pools |
| C77 | as C75, for the depositors of a pool in the backstop | a tick moves the index by a difference of two floors, any other call leaves the claimable amount (C76); induction over the history |
| C78 | execution of a backstop claim: what each pool and user is credited; histories for the coverage | both loops of the claim by induction over the list; the C44 invariant with the time since the last update; totality of every step under bounds |
| C79 | execution of the backstop's and of a pool's `gulp_emissions`: return value, records and stream configurations of every pool / reserve token | induction over the loop over the reward zone (resp. the configured tokens) without duplicates; arithmetic of truncating divisions summed over the zone |
| C80 | execution of every transaction; observers: positions, auctions, reserve rates | case analysis of every operation with the request-level characterisation of PoolReq; a liquidation needs debt above collateral; induction over histories; C14's rate monotonicity |
| C81 | execution of every transaction; observers: backstop shares, queued shares, pool balance | the share price as an inequality between products, preserved by each primitive backstop action (BackMoves) except a draw; only a bad debt fill draws; induction over histories |
| C82 | Events.v: what each call publishes; observers: backstop balances | each primitive backstop action (BackMoves) changes balances as its event says; nested draws, donations and claim deposits matched with their events; induction over histories |
| C83 | Events.v: what each request and call publishes; observers: positions, auctions | per-request effect on accounts as a function of the event (PoolFrame, PoolReq, PoolReach), auction scaling (AuctionFacts), frame for other pools' events; induction over histories |
| C84 | Events.v; observers: token balances of a pool, C83's book | potential `balance + pending in - pending out` along the request loop matched with the events; frame lemmas for every other transaction; induction over histories |
| C85 | as C03, plus `gift` of C84; observer `surplus`, explicit bounds `interest_dust`, `request_dust`, `tx_dust`, `dust` | upper-bound twin of C03's potential: a reserve not yet loaded in this ledger carries its pending interest dust, every request adds at most its rounding; induction over requests, transactions and histories |
| C86 | lifetimes of temporary entries (`Ttl.v`): the host's `extend_ttl` at each write, removals, paid extensions; the host removes an entry only after its last ledger | invariant: the entry of an open auction lives until 45 days after its first block; generic lemma that a fact about an entry that only its expiry can break holds until its last ledger; upper bound of lifetimes when nobody pays |
| C87 | everything the backstop records per pool address; `registered` is the factory's registry (C52) | invariant over all transactions: every write at an unregistered address writes zeros; the factory check guards deposits and donations when the shares are zero, and the reward zone needs a deposit |
| C88 | events (Events.v) of all contracts and the balance of the backstop in BLND | per transaction the balance changes by at least the events' sum, with equality for transactions that send nothing unasked (every call of the world's alphabet); no signer has an allowance on the backstop's tokens (C87); induction over histories |
| C89 | events (Events.v) of a pool and its configuration | a fold over the log (PropsEvents5.settle) keeps `describes`; per entry point the published events carry the new value (every call of the world's alphabet), calls of other pools publish nothing of this one; induction over histories |
| C90 | events (Events.v) of the emitter, the backstop and the factory with ledger times | a fold over the log (PropsEvents6.enter) keeps `right`; the reward zone, the factory's set and the emitter's storage change only in the calls whose events say so (C46, C50, C52); induction over histories |
| C91 | position values (PoolHF) of an account along a history | rates of a ledger are fixed (C72), configurations change only by `set_reserve` (C28), quotes only by the oracle; both weighted sums are monotone in each quote; with C80 the positions stay, and C16 excludes an auction; induction over histories |
| C92 | one-step bounds of C59 compounded along a history | (1+x)(1-(x+y)) <= 1-y and (1+x)(1+y) >= 1+x+y by induction over the history; the +1 unit of each rounding is at most 1e-9 of a rate of at least 1 |
| C93 | dTokens of an account along a history of others' transactions | C12 step by step, C61 for the fixed backstop, C92 for the rate, one unit for the rounding up |
| C94 | position values of an account along a history in which time passes | rates of C92 extended by the accrual not yet booked; stored bToken rates never fall (C04); with C80 and C16, induction over the history; a computed year of an account in the scenario meets all hypotheses |
| C95 | one submit followed by a history within the ledger | the health check of C08 leaves coverage above debt when 10^dec * 1.00001 exceeds 10^dec; C91 from there; the case of four decimals is computed |
| C96 | one load, and a list of loads | the share added to the bToken rate is a floored quotient; below one unit it is zero; induction over the list; the forty ledgers are computed |
| C97 | one submit | each request's shares are a quotient rounded by less than one; induction over the list as in C06, the other way round |
