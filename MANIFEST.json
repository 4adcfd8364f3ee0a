{
 "claims": [
  {
   "property": "C01",
   "status": "proved",
   "theorems": [
    "C01_tick_to_price"
   ],
   "note": "all integers; both directions of strict monotonicity, end points attained"
  },
  {
   "property": "C02",
   "status": "proved",
   "theorems": [
    "C02_price_to_tick",
    "C02_exact_at_spacing_one",
    "C02_out_of_range"
   ],
   "note": "all prices and spacings 1..100"
  },
  {
   "property": "C03",
   "status": "partial",
   "theorems": [
    "C03_step_bounds_partial",
    "C03_stays_in_range_refuted",
    "C03_input_bound_refuted"
   ],
   "note": "The stated property is false: an exact-input step towards lower prices can end below its target (by less than 10^24/cur units of 10^-24) and, landing exactly on the target, can charge more than offered. Everything else in C03 is proved, in particular it holds in full for square-root prices of at least 1, for the other direction and for exact output."
  },
  {
   "property": "C04",
   "status": "partial",
   "theorems": [
    "C04_rounding_partial",
    "C04_deposit_covers_withdrawal",
    "C04_out_of_range_position_exact",
    "C04_rounded_up_refuted"
   ],
   "note": "False only for the rounded-up x amount at a price that is not a multiple of 10^-18 (short by less than 10^24/(pa pb) units). y amounts, rounded-down x amounts, positions entirely on one side of the price, and deposit >= withdrawal are proved."
  },
  {
   "property": "C05",
   "status": "partial",
   "theorems": [
    "C05_curve_price_partial",
    "C05_input_refuted"
   ],
   "note": "False only for input in x, which can be short of the exact curve amount by less than 10^24/(cur next) units per step; outputs and input in y proved."
  },
  {
   "property": "C06",
   "status": "partial",
   "theorems": [
    "C06_fee_partial",
    "C06_fee_refuted"
   ],
   "note": "False for exact-input steps towards lower prices that stop before the target: the fee can be short by 1 + amount/d units. Proved for all other steps, with that bound for these."
  },
  {
   "property": "C07",
   "status": "proved",
   "theorems": [
    "C07_min_amount_out"
   ],
   "note": ""
  },
  {
   "property": "C08",
   "status": "proved",
   "theorems": [
    "C08_search_up",
    "C08_search_down"
   ],
   "note": ""
  },
  {
   "property": "C09",
   "status": "proved",
   "theorems": [
    "C09_flag_defined",
    "C09_flip_changes_one_flag"
   ],
   "note": ""
  },
  {
   "property": "C10",
   "status": "proved",
   "theorems": [
    "C10_no_collision",
    "C10_pool_key_roundtrip",
    "C10_pool_key_encodable",
    "C10_token_id_roundtrip"
   ],
   "note": ""
  },
  {
   "property": "C100",
   "status": "partial",
   "theorems": [
    "C100_rising_partial",
    "C100_falling_partial",
    "C100_output_partial",
    "C100_refuted"
   ],
   "note": "False to the token, by rounding (refuted). Proved in every reachable state for offers in both directions and for amounts to pay out, to within a token on both sides for each leg of the trade and the worth of one step of the price in the last leg; the number of legs is bounded by the ticks moved (offers) or by the crossed ticks and search windows (amounts to pay out; rising ones also by what they cost)."
  },
  {
   "property": "C101",
   "status": "partial",
   "theorems": [
    "C101_two_partial",
    "C101_order_partial",
    "C101_invisible",
    "C101_refuted"
   ],
   "note": "False to the letter: at a tick that is the upper end of one deposit and the lower end of another with a net change of zero, the stored (and shown) sign of that zero depends on the order (C101_refuted). Proved: in every order everyone gets the same answers and the state is the same up to such signs, exactly the same if no tick is the upper end of one and the lower end of another (C101_two_partial, C101_order_partial); such a sign never makes a difference to any later call (C101_invisible). The pools must have been created no later than the block."
  },
  {
   "property": "C102",
   "status": "partial",
   "theorems": [
    "C102_more_partial",
    "C102_deposits",
    "C102_refuted"
   ],
   "note": "False as stated (C102_refuted: at a fee of 50% a deposit of 1% more liquidity makes the same payment yield 5% less). Proved for clean histories and exact inputs: the output in the deeper pool is at least the other one up to the square of the fee, one part in 10^13 and rounding per swap and tick spacing; deposits keep every position and every price. Missing: swaps that are not clean, exact outputs."
  },
  {
   "property": "C103",
   "status": "partial",
   "theorems": [
    "C103_ask_partial",
    "C103_rising_refuted",
    "C103_converse_refuted"
   ],
   "note": "Proved in every reachable state for swaps that lower the price and offers of at most 10^14 units: a smaller request costs at most one unit more, and no more if it is smaller by two and the liquidity at the end is below 10^30 units. False by rounding for swaps that raise the price (C103_rising_refuted), converse false by the fee (C103_converse_refuted). Missing: larger offers."
  },
  {
   "property": "C104",
   "status": "proved",
   "theorems": [
    "C104_two",
    "C104_order",
    "C104_own_refuted"
   ],
   "note": "Withdrawals and claims by different senders in one block; C104_own_refuted shows why 'different people' is needed. Burn is not covered."
  },
  {
   "property": "C105",
   "status": "proved",
   "theorems": [
    "C105_claim"
   ],
   "note": "any calls in between and afterwards; the final call may be a claim or a withdrawal; at most one unit of each token is lost, and ex_C105 loses one"
  },
  {
   "property": "C106",
   "status": "proved",
   "theorems": [
    "C106_history",
    "C106_withdraw"
   ],
   "note": "two histories equal up to protocol-fee calls; that a trade may succeed under one protocol fee and fail under another only at the counters' limits is C46"
  },
  {
   "property": "C107",
   "status": "proved",
   "theorems": [
    "C107_counters",
    "C107_quotes",
    "C107_unclean_refuted"
   ],
   "note": "For all histories of clean calls. C107_unclean_refuted shows the boundary: after a trade that stops at a tick without crossing it, the value of the counters shows."
  },
  {
   "property": "C108",
   "status": "proved",
   "theorems": [
    "C108_decides",
    "C108_quotes"
   ],
   "note": "Histories without trades that stop at an initialized tick (such trades refute it, see C107_unclean_refuted); the second state may have any history. Only the sign recorded with a net change of zero, dates, counters and blocks may differ."
  },
  {
   "property": "C109",
   "status": "proved",
   "theorems": [
    "C109_trace"
   ],
   "note": "Clean histories; the example shows a stay during which somebody trades does leave a trace."
  },
  {
   "property": "C11",
   "status": "proved",
   "theorems": [
    "C11_tick_sums"
   ],
   "note": "For every reachable store: a tick record holds exactly the sums over the positions; without a record the sums are zero."
  },
  {
   "property": "C110",
   "status": "proved",
   "theorems": [
    "C110_two",
    "C110_first",
    "C110_order",
    "C110_room_refuted"
   ],
   "note": "Clean histories; pools already begun at the block's time. The order with withdrawals first is the one that always succeeds; C110_room_refuted shows that the opposite order can fail."
  },
  {
   "property": "C111",
   "status": "proved",
   "theorems": [
    "C111_trades",
    "C111_quotes",
    "C111_route_quotes",
    "C111_ends_refuted"
   ],
   "note": "All reachable states, clean or not. C111_ends_refuted: without the condition on where positions end, the rounding differs."
  },
  {
   "property": "C112",
   "status": "proved",
   "theorems": [
    "C112_names",
    "C112_genesis",
    "C112_history",
    "C112_queries",
    "C112_strangers",
    "C112_order_refuted"
   ],
   "note": "Renaming of accounts (injective, contract's own name fixed) and tokens (injective, byte order of each new pool's pair kept; C112_order_refuted shows that this is needed). Listings across accounts (all tokens, all approvals) are sorted by name and not covered."
  },
  {
   "property": "C113",
   "status": "partial",
   "theorems": [
    "C113_smaller_offer_partial",
    "C113_smaller_request_partial",
    "C113_falling_offer_refuted",
    "C113_rising_request_refuted"
   ],
   "note": "Proved for falling exact-output swaps (a smaller request is accepted and costs no more) and for rising exact-input swaps with tier fee at most 99 %, a at most 10^29 and room in the protocol fee counter (only NoGainSwap can refuse the smaller offer). Missing: falling offers, where the property is false (an offer of 1008 is accepted and 1007 is refused with a subtraction error), and rising requests, where it is false through gas (the smaller request leaves a remainder and needs a second iteration)."
  },
  {
   "property": "C114",
   "status": "proved",
   "theorems": [
    "C114_twins",
    "C114_histories",
    "C114_movers",
    "C114_sending",
    "C114_delegates",
    "C114_receiver_refuted"
   ],
   "note": "For all states and histories. The condition that the receiver is a valid address is needed: the token interface accepts any receiver (C114_receiver_refuted)."
  },
  {
   "property": "C115",
   "status": "proved",
   "theorems": [
    "C115_deposits",
    "C115_unnoticed",
    "C115_withdrawals"
   ],
   "note": "For all reachable states. The condition that some position already ends at the middle tick is needed for later trades to be the same (C111_ends_refuted). That the earnings of the parts add up is C89_adjacent."
  },
  {
   "property": "C116",
   "status": "proved",
   "theorems": [
    "C116_undo",
    "C116_later_refuted"
   ],
   "note": "C116_undo: for every reachable state and accepted deposit, the removal of the new position as the next call is accepted and pays back what was paid up to rounding. C116_later_refuted: a witness (other owner's withdrawal in between, after a skipped tick) that a later removal can be refused, as the statement says."
  },
  {
   "property": "C117",
   "status": "proved",
   "theorems": [
    "C117_answers"
   ],
   "note": "For every query but the two quotes (whose success depends on the gas of the swap loop; C84 and others speak of them). query_typed: numbers fit their types, token names fit a key. countable spells out which tick ranges can be counted."
  },
  {
   "property": "C118",
   "status": "proved",
   "theorems": [
    "C118_reveals",
    "C118_no_secrets"
   ],
   "note": "same_data is what the answers determine: everything stored, except that a position count of zero is not told from none."
  },
  {
   "property": "C119",
   "status": "proved",
   "theorems": [
    "C119_says",
    "C119_listings",
    "C119_quotes",
    "C119_reversed_refuted"
   ],
   "note": "told spells out the answer to each query in terms of the recorded facts; C119_quotes adds the two quotes. C119_reversed_refuted is the exception named in the statement."
  },
  {
   "property": "C12",
   "status": "proved",
   "theorems": [
    "C12_record_bit_position",
    "C12_no_pool"
   ],
   "note": "Bit, record and position bound are equivalent in every reachable store; pools that do not exist have none of them."
  },
  {
   "property": "C120",
   "status": "proved",
   "theorems": [
    "C120_guard",
    "C120_monotone"
   ],
   "note": "cost_x and cost_y are the explicit amounts of C80, into brings a price into the range."
  },
  {
   "property": "C121",
   "status": "proved",
   "theorems": [
    "C121_governance",
    "C121_next"
   ],
   "note": "every interleaving of governing calls with holders' calls; trades, which a protocol fee does influence, are C46 and C106"
  },
  {
   "property": "C122",
   "status": "proved",
   "theorems": [
    "C122_housekeeping",
    "C122_next"
   ],
   "note": "every interleaving of housekeeping calls with trades and deposits; opening a pool does depend on the listed tiers (C35) and is left out"
  },
  {
   "property": "C123",
   "status": "proved",
   "theorems": [
    "C123_trades",
    "C123_deposit"
   ],
   "note": "every history and every exchange of callers; the depositors compared are below the limit of 2^32 - 1 positions"
  },
  {
   "property": "C124",
   "status": "proved",
   "theorems": [
    "C124_unused"
   ],
   "note": "every interleaving of permission calls with calls that use no permission; what permissions allow is C30, C31 and C55"
  },
  {
   "property": "C13",
   "status": "partial",
   "theorems": [
    "C13_active_liquidity_refuted",
    "C13_active_liquidity_partial",
    "C13_clean_unless_near"
   ],
   "note": "False as stated: a rising swap that stops exactly on an initialized tick's price because of its own limit moves the current tick without crossing (C95 lists all ways and the exact error). Holds for every history in which no swap skips a tick it passed; C13_clean_unless_near gives the observable condition for that."
  },
  {
   "property": "C14",
   "status": "proved",
   "theorems": [
    "C14_price_in_tick"
   ],
   "note": "Every reachable store."
  },
  {
   "property": "C15",
   "status": "partial",
   "theorems": [
    "C15_contract_solvent_partial",
    "C15_pool_solvent_partial",
    "C15_books_exist",
    "C15_solvent_refuted",
    "C15_double_refund_refuted"
   ],
   "note": "Holds after clean histories (every swap crossed the initialized ticks it passed): contract balance of every token covers what all pools owe, and per CW20 pool the received-minus-paid ledger covers the pool's debts; token x needs fewer than 10^14 swap-loop iterations because get_delta_x rounds short. False in general: two witnesses leave the contract insolvent (a swap limit equal to an initialized tick's price; a route taking the same native coin twice)."
  },
  {
   "property": "C16",
   "status": "partial",
   "theorems": [
    "C16_distribution_partial",
    "C16_total_partial",
    "C16_out_of_range_partial",
    "C16_charge",
    "C16_fees_refuted"
   ],
   "note": "Clean swaps from clean histories: every charge is split exactly among the positions in range at that moment (rounded down, modulo 2^128), the protocol gets its cut, nothing else changes, and the total granted never exceeds the fee. False in general: C16_fees_refuted grants 40000 tokens for a fee of 3 after a swap stopped at an initialized tick without crossing it."
  },
  {
   "property": "C17",
   "status": "partial",
   "theorems": [
    "C17_withdraw_refuted",
    "C17_withdraw_when",
    "C17_withdraw_stuck",
    "C17_withdraw_partial"
   ],
   "note": "false in general: a swap limited to an initialized tick's price can leave a position stuck (C17_withdraw_refuted). Proved: in every reachable state a withdrawal with amounts below 2^128 succeeds unless the position is in range with more liquidity than the pool counts as active, and then it fails; in histories of clean calls with fewer than 10^14 swap steps every owner can withdraw every position and the contract holds the amount paid. y is the exact value rounded down, x may be short by one token plus a 10^24/(price product) part of the value."
  },
  {
   "property": "C18",
   "status": "proved",
   "theorems": [
    "C18_open_close"
   ],
   "note": "every reachable state and every successful create; also proves that the removal succeeds"
  },
  {
   "property": "C19",
   "status": "partial",
   "theorems": [
    "C19_exact_input_partial",
    "C19_limit_refuted",
    "C19_charges_offer_partial"
   ],
   "note": "Charge, positive output and direction hold for every successful exact-input swap. The limit sentence is false: a falling swap can end below its limit (C19_limit_refuted); proved bound: by less than 10^24/price units, never when the limit is at least 1 (10^24), never for rising swaps."
  },
  {
   "property": "C20",
   "status": "proved",
   "theorems": [
    "C20_exact_output"
   ],
   "note": "Every reachable state and every successful exact-output swap."
  },
  {
   "property": "C21",
   "status": "proved",
   "theorems": [
    "C21_quote_predicts_swap",
    "C21_quoted_amounts"
   ],
   "note": "Every reachable state; the 'if' direction assumes the sender can pay (cw20 token, or enough attached coins). C21_quoted_amounts: the amounts are positive and are exactly what is charged and paid."
  },
  {
   "property": "C22",
   "status": "partial",
   "theorems": [
    "C22_route_quote_refuted",
    "C22_route_quote_partial"
   ],
   "note": "False when a route visits a pool twice (witness). Proved for routes over pairwise different pools."
  },
  {
   "property": "C23",
   "status": "proved",
   "theorems": [
    "C23_route_delivers",
    "C23_route_complete"
   ],
   "note": "A route is exactly the chain of its swaps; the output bound is the slippage bound."
  },
  {
   "property": "C24",
   "status": "proved",
   "theorems": [
    "C24_swap_terminates"
   ],
   "note": "Every reachable state; the number of allowed iterations is universally quantified, so the result is the limit value."
  },
  {
   "property": "C25",
   "status": "partial",
   "theorems": [
    "C25_rising_input_partial",
    "C25_falling_input_partial",
    "C25_exact_output_partial",
    "C25_exact_output_refuted",
    "C25_dust_refuted",
    "C25_large_refuted",
    "C25_edge_refuted",
    "C25_zero_fee_refuted"
   ],
   "note": "False as stated: an exact output, a dust position in front of deep liquidity, an input above 2^256/10^48, an offer whose step lands exactly on a tick while the rounded price of the step exceeds it, and an offer to a pool without a fee are each refused although the pool can absorb the trade (C25_*_refuted). Proved for exact-input swaps in both directions: if wherever there is liquidity ahead it is at least 1/34028 of the offer, the offer is at most 10^29 and (falling) the tier has a fee and the limit is not within 65536 units of the lowest price, a swap only fails by reaching the price limit, the last tick, for a zero output, or (falling only) by the subtraction error of C25_edge_refuted. Proved for exact-output swaps in both directions: if every range ahead that holds liquidity could by itself pay the whole order from the price at its far end, the swap only fails by reaching the price limit or the last tick, for want of gas (with a bound on the gas that is enough) or for missing native funds, and its price never exceeds 10^38."
  },
  {
   "property": "C26",
   "status": "proved",
   "theorems": [
    "C26_other_pools_untouched",
    "C26_trade_keeps_positions"
   ],
   "note": "All 21 messages."
  },
  {
   "property": "C27",
   "status": "partial",
   "theorems": [
    "C27_cycle_partial",
    "C27_cycle_refuted"
   ],
   "note": "Any sequence of clean swaps that returns to its starting price leaves the pool with no less of token y, and no less of token x if it took fewer than 10^14 iterations. False in general: C27_cycle_refuted."
  },
  {
   "property": "C28",
   "status": "proved",
   "theorems": [
    "C28_only_admin_changes_config",
    "C28_admin_calls"
   ],
   "note": "every history, caller and call; also what the admin's calls do"
  },
  {
   "property": "C29",
   "status": "proved",
   "theorems": [
    "C29_protocol_fee",
    "C29_withdraw"
   ],
   "note": "every history, caller and call"
  },
  {
   "property": "C30",
   "status": "proved",
   "theorems": [
    "C30_untouched",
    "C30_position_survives"
   ],
   "note": "C30_position_survives is the per-position version: it may move to another index when the owner has given away rights on other positions"
  },
  {
   "property": "C31",
   "status": "proved",
   "theorems": [
    "C31_no_live_permission",
    "C31_expired_grant"
   ],
   "note": "every state"
  },
  {
   "property": "C32",
   "status": "proved",
   "theorems": [
    "C32_transfer",
    "C32_content_preserved"
   ],
   "note": "TransferPosition, TransferNft and SendNft, also to oneself"
  },
  {
   "property": "C33",
   "status": "partial",
   "theorems": [
    "C33_burn_refuted",
    "C33_burn_partial"
   ],
   "note": "False for operators and approved spenders: the burn removes the sender's own position at the token's index. Proved for owners."
  },
  {
   "property": "C34",
   "status": "proved",
   "theorems": [
    "C34_contiguous",
    "C34_removal",
    "C34_page",
    "C34_paging"
   ],
   "note": "page requests whose offset+limit fits u32 (larger ones abort, see C39)"
  },
  {
   "property": "C35",
   "status": "partial",
   "theorems": [
    "C35_unique_refuted",
    "C35_fee_tiers_partial"
   ],
   "note": "The uniqueness clause is false of the code: instantiate/add paths let the list hold a tier twice (witness in C35_unique_refuted); the partial theorem proves the remaining clauses for every reachable state."
  },
  {
   "property": "C36",
   "status": "partial",
   "theorems": [
    "C36_swap_partial",
    "C36_swap_exact_partial",
    "C36_create_partial",
    "C36_route_partial",
    "C36_route_once_partial",
    "C36_coins_kept",
    "C36_zero_side_refuted",
    "C36_double_refund_refuted",
    "C36_other_coin_refuted",
    "C36_claim_refuted"
   ],
   "note": "Proved: a swap keeps of the coin it takes exactly amount_in and sends exactly amount_out of the other; a new position keeps exactly each non-zero deposit; a route sends back the attached coin minus the charge once per hop that takes it, so exactly once when one hop takes it; everything sent goes to the caller. False as stated, with counterexamples: a route with two hops taking the coin returns it twice, coins for a side with zero deposit, of another denomination, or attached to a call that charges nothing are kept."
  },
  {
   "property": "C37",
   "status": "proved",
   "theorems": [
    "C37_canonical",
    "C37_order_irrelevant",
    "C37_permanent",
    "C37_fresh"
   ],
   "note": "Over all reachable states and all calls."
  },
  {
   "property": "C38",
   "status": "proved",
   "theorems": [
    "C38_paging_complete"
   ],
   "note": "for every reachable state and every page size of at least one the listing ends with one fixed duplicate-free list that holds exactly the pools"
  },
  {
   "property": "C39",
   "status": "partial",
   "theorems": [
    "C39_positions_page_partial",
    "C39_length_refuted",
    "C39_abort_refuted"
   ],
   "note": "holds for limits up to 100 while offset + limit < 2^32; larger limits are honoured and an overflowing sum aborts, both shown by witnesses"
  },
  {
   "property": "C40",
   "status": "partial",
   "theorems": [
    "C40_tick_count_partial",
    "C40_tick_count_refuted",
    "C40_refuses"
   ],
   "note": "every answer is exact; the query aborts exactly on ranges of at least 64 ticks that start on the first or end on the last tick of a 64-tick chunk (witness and general statement)"
  },
  {
   "property": "C41",
   "status": "proved",
   "theorems": [
    "C41_tickmap_exact"
   ],
   "note": "every reachable state, both directions"
  },
  {
   "property": "C42",
   "status": "partial",
   "theorems": [
    "C42_total_fits",
    "C43_crossing_refuted",
    "C43_crossing_partial"
   ],
   "note": "Totals and active sums fit in every reachable store (C42_total_fits). The crossing sentence fails after a swap that skipped a tick (C43_crossing_refuted) and holds after all other histories (C43_crossing_partial)."
  },
  {
   "property": "C43",
   "status": "partial",
   "theorems": [
    "C43_crossing_refuted",
    "C43_crossing_partial"
   ],
   "note": "False as stated: after a swap that stopped on its limit at an initialized tick, crossing underflows and swaps in both directions panic. Holds in every loop state of every swap from a clean history, whatever the swap, if the clock is not before the pool's start."
  },
  {
   "property": "C44",
   "status": "proved",
   "theorems": [
    "C44_claim",
    "C44_claim_succeeds"
   ],
   "note": "every reachable state; the claim pays exactly the growth since the checkpoint times liquidity, rounded down; an immediately repeated claim succeeds and pays nothing"
  },
  {
   "property": "C45",
   "status": "proved",
   "theorems": [
    "C45_simulation",
    "C45_converse",
    "C45_from_queries",
    "C45_zero_output_refuted"
   ],
   "note": "For every state, pool, tickmap and tick list that agree with the contract's storage, a successful quote within 173 crossed ticks is reproduced by simulate_swap (input, output, final price, crossed ticks, no flag); beyond the limit only the too-many flag is set. C45_converse is the opposite direction in reachable states (fee tier at most 99.99%, room in the protocol fee counter, non-zero output). C45_from_queries shows that the contract's own tickmap and tick queries give such a view. C45_zero_output_refuted: a simulation that pays nothing carries no flag although the contract refuses the swap."
  },
  {
   "property": "C46",
   "status": "partial",
   "theorems": [
    "C46_swap_partial",
    "C46_route_partial",
    "C46_quote",
    "C46_refuted",
    "C46_init_refuted"
   ],
   "note": "Proved for every protocol fee up to 100%: a swap, route or quote that succeeds with no protocol fee succeeds with it, with the same messages, amounts, price, tick and liquidity, provided the protocol fee counter does not overflow 128 bits. False as stated: the contract accepts a protocol fee above 100% (at instantiation and from the admin) and then swaps panic."
  },
  {
   "property": "C47",
   "status": "proved",
   "theorems": [
    "C47_by_x",
    "C47_by_y"
   ],
   "note": "In every reachable state, if CreatePosition or Mint succeeds with the liquidity computed by getLiquidityByX/Y at the pool's price, the caller is charged exactly the amount given (tokens and coins, net of refunds)."
  },
  {
   "property": "C48",
   "status": "partial",
   "theorems": [
    "C48_refuted",
    "C48_by_y_refuted",
    "C48_by_x_partial",
    "C48_by_y_partial"
   ],
   "note": "False: calculate_y drops the fraction of the liquidity and calculate_x truncates before dividing, so the charge can exceed the report, by 1 unit at price 1 and by 250 units at a low price (witnesses). Proved: an explicit bound on the shortfall for all reachable states; at most one unit below (y) or above (x) price 1."
  },
  {
   "property": "C49",
   "status": "proved",
   "theorems": [
    "C49_fee"
   ],
   "note": "Equivalence in every reachable state: calculateFee returns (x, y) iff ClaimFee succeeds and pays x and y."
  },
  {
   "property": "C50",
   "status": "proved",
   "theorems": [
    "C50_expand"
   ],
   "note": "In every reachable state a tick is stored iff it is position_to_tick of a set bit of a stored chunk."
  },
  {
   "property": "C51",
   "status": "partial",
   "theorems": [
    "C51_refuted",
    "C51_no_gain_partial"
   ],
   "note": "False: with limits on four initialized ticks' prices, five swaps end with 13632 tokenx and 53906 tokeny taken from the pool for nothing (witness). Proved for clean histories (no initialized tick passed without crossing): y <= 0 implies x >= 0 below 10^14 loop iterations, x <= 0 implies y >= 0 below 2*10^4."
  },
  {
   "property": "C52",
   "status": "partial",
   "theorems": [
    "C52_claims_unaffected",
    "C52_same_payout",
    "C52_withdrawals_unaffected_partial",
    "C52_refuted"
   ],
   "note": "Claims (success and amounts) and payouts of withdrawals proved for all reachable states. Whether a withdrawal succeeds: false after skipped ticks (witness: one withdrawal blocks another), proved for clean histories."
  },
  {
   "property": "C53",
   "status": "proved",
   "theorems": [
    "C53_listing",
    "C53_resolves"
   ],
   "note": "Listing complete and duplicate-free for every page size >= 1; ids resolve exactly to open positions. Owner names are assumed valid UTF-8 for owner_of (they come from addresses)."
  },
  {
   "property": "C54",
   "status": "partial",
   "theorems": [
    "C54_tokens_partial",
    "C54_paging_refuted"
   ],
   "note": "False: start_after is treated as an inclusive offset, so the last token is returned again and pages of one token never advance (witness). Proved: the exact slice that every page returns."
  },
  {
   "property": "C55",
   "status": "proved",
   "theorems": [
    "C55_honoured",
    "C55_operators_listing"
   ],
   "note": "Transfer, send, approve and revoke succeed exactly for reported callers."
  },
  {
   "property": "C56",
   "status": "partial",
   "theorems": [
    "C56_time_inside_partial",
    "C56_starts_at_zero",
    "C56_time_inside_refuted"
   ],
   "note": "False after a swap that stops at a tick without crossing it: the range above the tick is credited with 8 seconds that the price never spent there (witness). Proved for clean histories, any interleaving of waits and calls. The fields count milliseconds although named seconds."
  },
  {
   "property": "C57",
   "status": "proved",
   "theorems": [
    "C57_operators",
    "C57_approve",
    "C57_revoke",
    "C57_no_unasked_approval"
   ],
   "note": "Grants as reported by approved_for_all (expired ones included) before and after any successful call; approvals as reported by nft_info."
  },
  {
   "property": "C58",
   "status": "partial",
   "theorems": [
    "C58_token_ids_partial",
    "C58_token_ids_refuted"
   ],
   "note": "False: removing or transferring a position renames the owner's last token to the freed id (witness). Proved: content and owner are kept and the renaming of the last token is the only change of ids."
  },
  {
   "property": "C59",
   "status": "proved",
   "theorems": [
    "C59_position_height",
    "C59_pool_start"
   ],
   "note": "Over traces of successful calls."
  },
  {
   "property": "C60",
   "status": "proved",
   "theorems": [
    "C60_events",
    "C60_swap_event",
    "denotes_decimal",
    "denotes_int"
   ],
   "note": "The text of every number in a response denotes exactly the value; for positions, swaps and fee claims the values are those of the effect."
  },
  {
   "property": "C61",
   "status": "proved",
   "theorems": [
    "C61_liquidity_from_events"
   ],
   "note": "For all histories."
  },
  {
   "property": "C62",
   "status": "partial",
   "theorems": [
    "C62_holdings_from_events_partial",
    "C62_holdings_from_events_refuted"
   ],
   "note": "False as stated: transfers do not report what moved to whom. Proved for histories without transfers."
  },
  {
   "property": "C63",
   "status": "proved",
   "theorems": [
    "C63_rounding",
    "C63_rounding_same",
    "C63_rounding_scale"
   ],
   "note": "All operations, all types with scale up to 38 and up to 128 bits."
  },
  {
   "property": "C64",
   "status": "partial",
   "theorems": [
    "C64_big_success_partial",
    "C64_same_success_partial",
    "C64_scale_success_partial",
    "C64_success_refuted"
   ],
   "note": "False for narrow products and quotients, scale differences above the source type, rounding up near the top. Exact success criteria proved for all other operations."
  },
  {
   "property": "C65",
   "status": "proved",
   "theorems": [
    "C65_conversions"
   ],
   "note": "Limb lists."
  },
  {
   "property": "C66",
   "status": "partial",
   "theorems": [
    "C66_sdk_pools_partial",
    "C66_sdk_tiers_partial",
    "C66_sdk_tiers_refuted"
   ],
   "note": "False for a tier of exactly 100%; pools and all other tiers proved."
  },
  {
   "property": "C67",
   "status": "proved",
   "theorems": [
    "C67_seconds_global",
    "C67_seconds_defined",
    "C67_seconds_inside"
   ],
   "note": "Code not used by the entry points."
  },
  {
   "property": "C68",
   "status": "partial",
   "theorems": [
    "C68_two_token_liquidity_partial",
    "C68_two_token_liquidity_refuted"
   ],
   "note": "False when the price is inside the range; proved outside. Code used only by the contract's tests."
  },
  {
   "property": "C69",
   "status": "proved",
   "theorems": [
    "C69_swap_effect"
   ],
   "note": "Every successful swap charges >= 1, pays >= 1, moves the price strictly and only its input token earns fees."
  },
  {
   "property": "C70",
   "status": "proved",
   "theorems": [
    "C70_price_source"
   ],
   "note": "All calls, all pools."
  },
  {
   "property": "C71",
   "status": "partial",
   "theorems": [
    "C71_limit_partial",
    "C71_limit_refuted"
   ],
   "note": "False for rising exact-output swaps (rounding of the amount up to the limit); proved for the other three kinds of swap."
  },
  {
   "property": "C72",
   "status": "proved",
   "theorems": [
    "C72_changes_only",
    "C72_depends_only"
   ],
   "note": "For all 21 calls and all states; no reachability needed. A pool counts as touched if the call names it, routes through it, or the sender's position of the given index lies in it."
  },
  {
   "property": "C73",
   "status": "proved",
   "theorems": [
    "C73_undisturbed",
    "C73_commute"
   ],
   "note": "Final stores are equal as maps. The admin's four settings calls are excluded; ex_C73 shows that two swaps in one pool do not commute."
  },
  {
   "property": "C74",
   "status": "proved",
   "theorems": [
    "C74_time"
   ],
   "note": "For all calls; hypothesis begun: no pool in the state was created later than the call (times are non-decreasing on chain). Calls that consult approvals need the approvals in force to be judged alike at both times; ex_C74 shows they can differ otherwise."
  },
  {
   "property": "C75",
   "status": "proved",
   "theorems": [
    "C75_history"
   ],
   "note": "Histories of all calls from instantiation."
  },
  {
   "property": "C76",
   "status": "proved",
   "theorems": [
    "C76_tick_price",
    "C76_tick_of_price"
   ],
   "note": "Accuracy against the true powers, as inequalities between rationals."
  },
  {
   "property": "C77",
   "status": "partial",
   "theorems": [
    "C77_rounded_refuted",
    "C77_product_partial",
    "C77_reciprocal_partial",
    "C77_doubling_partial"
   ],
   "note": "False: the factor table is a chain of truncated squares. Proved: prices multiply up to 274 parts in 10^9, opposite ticks have truncated reciprocals, and the exact law behind the table."
  },
  {
   "property": "C78",
   "status": "proved",
   "theorems": [
    "C78_position_ticks",
    "C78_liquidity_ticks"
   ],
   "note": "Exact content and limits of both listings."
  },
  {
   "property": "C79",
   "status": "proved",
   "theorems": [
    "C79_allowed"
   ],
   "note": "The condition 'allowed' is written per message; amounts use C80's closed formulas. Pools starting in the future (possible only when block time runs backwards) are excluded."
  },
  {
   "property": "C80",
   "status": "proved",
   "theorems": [
    "C80_deposit",
    "C80_withdraw",
    "C80_round_trip"
   ],
   "note": "Exact amounts in closed form."
  },
  {
   "property": "C81",
   "status": "partial",
   "theorems": [
    "C81_more_out_partial",
    "C81_more_out_refuted"
   ],
   "note": "Proved for swaps that lower the price; false for swaps that raise it, by rounding: witness 888 units cost 910, 889 cost 908."
  },
  {
   "property": "C82",
   "status": "partial",
   "theorems": [
    "C82_more_in_partial",
    "C82_more_in_refuted"
   ],
   "note": "False by rounding and by the treatment of landing on a tick, witnesses in both directions. Proved: rising swaps but for one unit and one part in 10^14, price exactly; falling swaps up to 10^14 units but for one unit."
  },
  {
   "property": "C83",
   "status": "proved",
   "theorems": [
    "C83_deposits_add",
    "C83_sum_possible",
    "C83_withdrawals_add"
   ],
   "note": "Tables equal exactly; amounts up to one unit (deposits) and two units (withdrawals with fees). ex_C83_dearer shows that the unit of token x is needed in both directions."
  },
  {
   "property": "C84",
   "status": "proved",
   "theorems": [
    "C84_ledgers",
    "C84_nobody_else",
    "C84_exchange",
    "C84_swap",
    "C84_deposit"
   ],
   "note": "Ledgers as in World.v. The deposit theorem says which attached coins are kept."
  },
  {
   "property": "C85",
   "status": "partial",
   "theorems": [
    "C85_solvent_partial",
    "C85_never_short_partial",
    "C85_withdraw_partial",
    "C85_never_short_refuted"
   ],
   "note": "False as stated: after trades that stop exactly on initialized ticks the contract runs out and an owner's withdrawal is undone. Proved for histories of clean trades, no route taking the same native coin twice, and fewer than 10^14 loop iterations."
  },
  {
   "property": "C86",
   "status": "partial",
   "theorems": [
    "C86_route",
    "C86_affordable_partial",
    "C86_allowance_needed",
    "C86_first_token_refuted",
    "C86_native_middle_refuted",
    "C86_loose_hops_refuted"
   ],
   "note": "False as stated: tokens in between are taken back from the caller, so they must be allowed or attached, and hops need not fit together. For fitting routes whose inputs are CW20 tokens the exact effect is proved, and that the first token plus the allowances suffice."
  },
  {
   "property": "C87",
   "status": "partial",
   "theorems": [
    "C87_no_free_lunch_partial",
    "C87_outsider_partial",
    "C87_no_free_lunch_refuted"
   ],
   "note": "False when a swap stops exactly at a tick without crossing it (witness: two swaps that leave prices, positions and fees as they were bring 49705 tokeny). Proved for all call sequences by one account in which every trade crosses the ticks it passes and no route takes the same native coin twice (fewer than 10^14 loop iterations); the worth of the own positions at the start is rounded down by less than 3 per position."
  },
  {
   "property": "C88",
   "status": "proved",
   "theorems": [
    "C88_tickmap_pages",
    "C88_read_pool",
    "C88_simulation",
    "C88_pool_limit"
   ],
   "note": "For every reachable state, pool and direction; the client (paging loop, expansion of bits, paged tick reads) is defined in PropClient.v from the modelled queries and the SDK's position_to_tick."
  },
  {
   "property": "C89",
   "status": "partial",
   "theorems": [
    "C89_same_range",
    "C89_adjacent",
    "C89_proportional",
    "C89_charges_partial",
    "C89_wider_partial",
    "C89_wider_refuted"
   ],
   "note": "Equal ranges, adjoining ranges and proportional claims hold in every reachable state. That a wider range never earns less, and that earnings are covered by what traders paid, is false after a swap has stopped on a tick without crossing it (witness) and proved for histories of clean calls, the former while the traders paid less than 2^128/10^34 tokens per unit of liquidity."
  },
  {
   "property": "C90",
   "status": "partial",
   "theorems": [
    "C90_all_distributed_partial",
    "C90_fees_lost_refuted"
   ],
   "note": "False after a swap has stopped on a tick without crossing it (witness: of 60 tokens charged fewer than 4 reach anybody); for clean histories the loss is below the active liquidity over 10^34 per charge, provided no position's counter is lapped by the swap."
  },
  {
   "property": "C91",
   "status": "proved",
   "theorems": [
    "C91_as_in_sequence",
    "steps_facts"
   ],
   "note": "The world of Reentry.v: any set of hostile CW20 tokens and all NFT receivers, calls at any moment, waiting messages delivered in any order; failed calls leave no trace."
  },
  {
   "property": "C92",
   "status": "partial",
   "theorems": [
    "C92_solvent_partial",
    "C92_solvent_refuted",
    "history_storm"
   ],
   "note": "False without any hostile token, once a swap has stopped on a tick without crossing it (witness of C85, which is a special case by history_storm); proved for histories of clean calls with any number of re-entrant calls, up to 10^14 loop iterations."
  },
  {
   "property": "C93",
   "status": "partial",
   "theorems": [
    "C93_fair_partial",
    "C93_fee_y_partial",
    "C93_fee_x_partial",
    "C93_fee_refuted"
   ],
   "note": "Clean swaps decompose into legs with two-sided bounds; the naive bound on the fee is refuted."
  },
  {
   "property": "C94",
   "status": "partial",
   "theorems": [
    "C94_cost_partial",
    "C94_split_partial",
    "C94_split_refuted"
   ],
   "note": "for clean swaps of exact inputs: any sequence of swaps between two prices pays between (1+f) and 1/(1-f) times the curve and yields the curve, to within rounding per swap and tick spacing; splitting gains at most f^2. Exact neutrality of splitting refuted."
  },
  {
   "property": "C95",
   "status": "proved",
   "theorems": [
    "C95_other_calls",
    "C95_swap",
    "C95_route",
    "C95_phantom"
   ],
   "note": "for every reachable state and call, without restriction to clean histories; C95_phantom is the new way (no price limit needed) with its consequence"
  },
  {
   "property": "C96",
   "status": "proved",
   "theorems": [
    "C96_standing_offer"
   ],
   "note": "For any two reachable states and any position of the same pool, range and liquidity; fees are what a claim would pay. Example: 3702 of the first token sold for 3701 of the second."
  },
  {
   "property": "C97",
   "status": "partial",
   "theorems": [
    "C97_work_partial",
    "C97_enough_partial",
    "C97_rising_output_refuted"
   ],
   "note": "False for swaps for an exact output that raise the price: in a pool with hardly any liquidity at a low price such a swap may keep missing the requested output by rounding and needs ten iterations within one search window (witness). Proved for every other swap; for these the additional iterations of a successful swap are bounded by the units charged."
  },
  {
   "property": "C98",
   "status": "partial",
   "theorems": [
    "C98_pair_partial",
    "C98_pair_refuted"
   ],
   "note": "False: the listing goes through the current fee tiers, so a pool whose tier has been removed is not listed (though it can be traded), and a tier listed twice (C35) lists its pool twice. Proved: the listing is independent of the order, refuses equal tokens, holds exactly the pools of the pair whose tier is listed, in the order of the tiers, and each once if no tier is listed twice."
  },
  {
   "property": "C99",
   "status": "partial",
   "theorems": [
    "C99_unreached_partial",
    "C99_calls_partial",
    "C99_refuted"
   ],
   "note": "false for rising swaps with an exact output: a tick added just ahead of the end can attract the price by rounding and the swap costs more (C99_refuted). Proved for every exact input, for falling exact outputs unless ticks are added beyond (C99_unreached_partial), and for every sequence of deposits and withdrawals beyond the stretch and of unrelated calls (C99_calls_partial, exact inputs)."
  }
 ]
}
