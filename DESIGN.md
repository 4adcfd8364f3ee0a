# Formal model of oraiswap-v3: design

## What is modelled

The on-chain contract `/repo/contracts/oraiswap-v3` (Rust, CosmWasm) and the fixed-point arithmetic it uses
(`/repo/packages/decimal-core`). The model is a set of total, computable Gallina functions over `Z` with explicit
range checks. One Rust function corresponds to one Gallina definition with a comment citing file and lines.

| model file | code |
|---|---|
| `Base.v` | result type: `Ok`, `Err e` (a returned `ContractError`), `Panic` (overflow, `unwrap`, assert); integer widths |
| `Decimal.v` | decimal-core operations on the concrete types used |
| `SqrtPrice.v` | `math/types/sqrt_price.rs` |
| `Clamm.v` | `math/clamm.rs` |
| `Log.v` | `math/log.rs` |
| `FeeGrowth.v` | `math/types/fee_growth.rs` |
| `Types.v` | records of `storage/*.rs`, messages of `msg.rs`, outgoing messages of `interface.rs` |
| `Tick.v`, `Pool.v`, `Position.v`, `Tickmap.v` | `storage/*.rs` |
| `Keys.v` | byte-level storage keys (`storage/pool_key.rs`, `storage/fee_tier.rs`, `state.rs`) |
| `State.v` | `state.rs` |
| `Swap.v` | `entrypoints/common.rs` (swap loop, routes, ticks) |
| `Exec.v` | `entrypoints/common.rs` (NFT), `entrypoints/execute.rs`, `contract.rs` |
| `Query.v` | `entrypoints/query.rs` |
| `QueryMsg.v` | `QueryMsg` of msg.rs:140-281 and the entry point `query` of contract.rs:158-268; `to_binary` is not modelled, and token names longer than 65535 bytes (whose key encoding aborts) are left out by `query_typed` |
| `Event.v` | attributes of responses (`entrypoints/execute.rs`), `Display` of decimals (`decimal-core/src/others.rs`) |
| `DecLib.v` | `packages/decimal-core/src` (all generated operations), `packages/decimal/src/uint.rs` |
| `Extra.v` | `math/types/seconds_per_liquidity.rs`, `get_liquidity` of `logic/math.rs`; `/repo/wasm`: `storage/pool_key.rs`, `storage/fee_tier.rs`, rest of `custom.rs` |
| `World.v` | not in the repository: token ledgers around the contract (cw20-base, bank module) and the settling of a call's messages |
| `Reentry.v` | not in the repository: tokens and NFT receivers of unknown behaviour that call back while messages wait |
| `Sdk.v` | `/repo/wasm`: `swap.rs`, `collections/tickmap.rs`, `storage/pool.rs` (`update_tick`), `storage/tick.rs` (`cross`), `math.rs`, `custom.rs` (`calculate_fee`) |

### Conventions

* Every unsigned integer is a `Z`; every operation that can overflow in Rust is modelled with a check. The release
  profile of the contract has `overflow-checks = true`, so native overflow is a panic. `Err` and `Panic` both abort
  the transaction; CosmWasm then discards all writes. `execute` therefore returns the new store only on `Ok`.
* The storage is a record of finite maps (`std++` `gmap`) with logical keys. That byte-level keys never collide
  is property C10 and is what justifies this.
* The `while` loop of `calculate_swap` runs on fuel. Out of fuel is the explicit error `OutOfGas`: on chain a
  transaction has a gas limit, so a too long loop aborts. All safety theorems hold for every amount of fuel;
  termination is property C24.
* `addr_validate` (is this string a valid address?) is an oracle: a parameter of the environment, arbitrary.
* Block height and time are parameters of each call. Histories have non-decreasing time where that matters
  (stated in the theorem).

### Not modelled

JSON (de)serialization, gas metering other than as loop fuel, cw2 version info, `migrate` (a no-op),
behaviour of other contracts (cw20 tokens, NFT receivers): outgoing messages are recorded, and the solvency
statements count them as executed faithfully. For C84 - C87 `World.v` models plain ledgers that execute them (a CW20
transfer needs the balance, a transfer-from also the allowance; NFT receivers accept; anything that fails undoes the call); for C91 and C92 `Reentry.v` lets some tokens and all NFT receivers do anything, in any order. `POOL_KEYS*` items are declared but unused by the code.
Of the Rust `wasm/` SDK the swap simulation, the liquidity and fee calculators and the tickmap are modelled (`Sdk.v`).
Those of its files that repeat the contract's arithmetic (`clamm.rs`, `log.rs`, `types/*.rs`) were compared with the
contract's by reading and share the contract's definitions; which error the SDK returns is not modelled. Not modelled
in the SDK: the JavaScript bindings and constants getters. `logic/math.rs` of the contract (used only by its tests) is
the same code as `wasm/math.rs` except for `get_liquidity` (`Extra.v`).
The `uint` crate (U256, U320) is a dependency and not in the repository: its checked arithmetic is assumed exact, its
shift by whole limbs and `low_u64` are modelled in `DecLib.v`. The rest of the model uses plain integers with explicit
range checks; `PropDec.v` (`model_big_mul`, C63 - C65) ties them to the library's code.

### Assumptions in the statements about money

The solvency theorems (C15, C17, C27) are about the contract's own books: a CW20 token is assumed to execute the
transfer messages faithfully (`Cw20TransferFrom` moves the amount or the call fails), callers are not the contract
itself, and attached native coins are counted as the contract reads them (the first coin of a denomination). A token is
CW20 or native for a whole history (`addr_validate` of the denomination does not change). `Ledger.v`, `PropExit.v`
(`charged`) and `PropSolv.v` (`accounts`, `books`) define these books from the messages sent, not from the model's state.

### Histories

`reachable s` (`History.v`): `s` is the state after `instantiate` and any finite sequence of successful calls, with any
senders, funds, blocks and gas. `clean_history s` (`Clean.v`): additionally every swap crossed every initialized tick
that its price passed. The code violates the latter in one situation (see Findings); `C13_clean_unless_near` gives an
observable condition that excludes it: the swap does not end on, or within a rounding error of, an initialized tick's price.

## Trusted base

* Coq 8.16.1's kernel (including its VM for `vm_compute` proofs; `coqchk` re-checks without the VM).
* The correspondence between the Rust source and the Gallina model, by reading. Test vectors of the repo's unit tests
  are replayed on the model in `Vectors.v` as a check of that reading.
  The project's own test suite is replayed as well (`Replay.v` is the mock chain; `ReplayMath.v`, `ReplayStore.v`,
  `ReplayApp.v`, `ReplayApp2.v`, `ReplayDec.v`): about 160 Rust tests with about 1,300 assertions, translated
  mechanically into examples about the model. All of them hold; each file lists what is left out and why. Where the
  tests compare error values, two pairs of errors that the model merges are compared as one
  (`CurrentSqrtPriceLess` and `UpperSqrtPriceLess` as `StdErr`; `TimestampCheckFailed` as the overflow it wraps).
* `Print Assumptions` of each theorem: see the end of this file.

## Properties and outcome

"refuted" = a theorem `..._refuted` with a concrete history evaluated by the kernel. The `_partial` theorem beside it
says exactly what holds instead; what is missing is named in its comment and in `MANIFEST.json`.

| id | where | outcome |
|---|---|---|
| C01, C02 | PropPrice (PriceProofs, LogPow, LogProofs) | proved: product chain bounds; iterative logarithm bracketed by powers |
| C03, C05, C06 | PropClamm | refuted for falling exact-input steps (landing price rounds past the target; fee short); proved otherwise with explicit error bounds |
| C04 | PropClamm | refuted for the rounded-up x amount (short by < 10^24/(pa pb) units); proved otherwise; deposit covers withdrawal proved |
| C07 | PropClamm | proved |
| C08, C09 | PropBitmap | proved: both searches find the nearest initialized tick in range; flips change one flag |
| C10 | PropKeys | proved at the level of bytes |
| C11, C12, C14, C34 | PropLiq, PropAuth | proved: inductive invariants over all histories |
| C13, C42 (crossing), C43 | PropLiq (Geo, Clean, CleanSuff) | refuted by a swap limit on an initialized tick; proved for clean histories |
| C15, C27 | PropSolv, PropFees (Value, Fund, Flow) | refuted (limit on a tick; native double refund); proved for clean histories, token x for fewer than 10^14 loop iterations |
| C16 | PropFees (Growth) | refuted after a skipped tick; proved for clean histories modulo 2^128 |
| C17 | PropExit (Forward) | refuted after a skipped tick (position stuck); exact criterion in all reachable states; proved for clean histories |
| C18, C44 | PropExit | proved |
| C19, C20, C24 | PropSwap, PropTrade | limit clause of C19 refuted for falling swaps (bound proved); rest proved |
| C21, C23, C26 | PropTrade | proved |
| C22 | PropTrade | refuted for a route through one pool twice; proved for distinct pools |
| C25 | PropBlock, PropFall, PropOut | refuted (dust liquidity, exact output, very large input, landing exactly on a tick, no fee); proved in both directions for exact-input swaps and for exact-output swaps, each under a liquidity condition |
| C28 - C32, C37 | PropAuth, PropConfig | proved |
| C33 | PropAuth | refuted for spenders and operators (burns the caller's position); proved for owners |
| C35 | PropConfig | uniqueness refuted; rest proved |
| C36 | PropFunds | refuted in four ways; per-call accounting proved |
| C38, C41 | PropQuery | proved |
| C39, C40 | PropQuery | refuted (uncapped limit and overflow; shift by 64); partial proved |
| C45 | PropSdk | proved in both directions, and from the contract's query answers; zero output noted |
| C46 | PropProt | refuted above 100%; proved up to 100% |
| C47, C49, C50 | PropSdkLiq | proved |
| C51 | PropArb | refuted (skipped tick); proved for clean histories with bounded effort |
| C52 | PropOthers | claims and payouts proved; possibility of withdrawal refuted (skipped tick), proved for clean histories |
| C53, C55 | PropNft | proved |
| C54 | PropNft | refuted (`start_after` is inclusive); the exact slice proved |
| C56 | PropTime | refuted (skipped tick); proved for clean histories |
| C57, C59 | PropPerm | proved |
| C58 | PropPerm | refuted (the owner's last token takes over a freed id); proved that nothing else changes ids |
| C60, C61 | PropEvent | proved: responses report the effect exactly, as decimal text; liquidity per range can be rebuilt from them |
| C62 | PropEvent | refuted (transfers do not say what moved); proved for histories without transfers |
| C63, C65 | PropDec | proved: every operation of the decimal library is exactly rounded; big integer conversions keep the value |
| C64 | PropDec | refuted for narrow operations, far scales, rounding up near the top; exact criteria proved for the rest |
| C66 | PropExtra | refuted (a tier of exactly 100%); pool keys, initial price check and other tiers proved |
| C67 | PropExtra | proved |
| C68 | PropExtra | refuted inside the range; proved outside |
| C69, C70 | PropMove | proved |
| C71 | PropMove | refuted for rising swaps with exact output (rounding); proved for all others |
| C72, C73 | PropLocal | proved for all states: locality of every call, exchange of unrelated calls |
| C74, C75 | PropClock | proved: the clock only decides expiry |
| C76 | PropExp | proved, in rationals |
| C77 | PropExp | refuted (tick 128 and above, tick -3); product, reciprocal and doubling laws proved |
| C78 | PropTicks | proved |
| C79–C80 | PropOk | proved |
| C81 | PropMono | refuted for rising swaps (888 units cost 910, 889 cost 908); proved for falling ones |
| C82 | PropMono | refuted (one unit more in, 0.01% less out; rounding); proved but for one unit and one part in 10^14, falling swaps up to 10^14 units |
| C83 | PropSplit | proved |
| C84 | PropWorld | proved |
| C85 | PropWorld | refuted (skipped tick); proved for clean histories with fewer than 10^14 loop iterations and no route using a coin twice |
| C86 | PropWorld | refuted (the tokens in between must be allowed or sent along, hops need not fit together); effect and affordability proved for routes through CW20 tokens |
| C87 | PropSolo | refuted (skipped tick); proved for clean trades with fewer than 10^14 loop iterations and no route using a coin twice |
| C88 | PropClient | proved (the client is defined in PropClient.v; the published page sizes for pools, 220 and 126, exceed the contract's 100) |
| C89 | PropShare | equal ranges, adjoining ranges and proportion of claims proved for all reachable states; wider ranges refuted after a skipped tick, proved for clean histories |
| C90 | PropShare | refuted after a skipped tick (of 60 tokens charged fewer than 4 are granted); proved for clean histories when no counter is lapped |
| C91 | PropReentry (Reentry) | proved for any interleaving of calls and deliveries, any set of hostile tokens |
| C92 | PropReentry | refuted as C15 is; proved for clean histories |
| C93 | PropFair | both bounds proved for clean swaps; "the fee is the advertised percentage rounded up" refuted: with much liquidity a step of the price is worth many tokens and what does not pay for a step is fee |
| C94 | PropCost | proved for clean swaps of exact inputs, any number of them; "splitting gains nothing beyond rounding" refuted (1% more at a fee of 50%) |
| C95 | PropDrift | proved for every reachable state (no clean hypothesis); all three ways are shown to happen |
| C96 | PropOffer | proved: opening and closing a position exchanges the tokens at the geometric mean of the clamped prices, with explicit rounding bounds; without fees never better than holding |
| C97 | PropWork | refuted for rising exact-output swaps (bounded by the amount charged instead); proved for all others: iterations are bounded by the initialized ticks and search windows passed |
| C98 | PropPair | refuted (removed and doubled tiers); proved relative to the listed tiers |
| C99 | PropReach | refuted (exact outputs, by rounding); proved for exact inputs |
| C100 | PropRate | refuted (to the token); proved up to one token per leg and one price step |
| C101 | PropOrder | refuted (to the letter); proved up to the sign of a net change of zero, which no later call depends on |
| C102 | PropMore | refuted (a deposit can move a trade from a fee on top to a fee as a share); proved up to the square of the fee and rounding, exact inputs, clean histories |
| C103 | PropAsk | falling swaps proved (to one unit; exact two units below the offer's yield); rising swaps refuted by rounding; converse refuted by the fee |
| C104 | PropLeave | proved for withdrawals and claims by different people; calls of one person refuted (renumbering) |
| C105 | PropOften | proved: an early claim is not noticed by others, costs its owner at most one unit of each token, and leaves no trace after the next claim or withdrawal |
| C106 | PropBlind | proved: two histories that differ in protocol-fee calls answer all else alike |
| C107 | PropGauge | proved: moving the fee counters of a pool by any amount modulo 2^128 changes no reply; refuted after a trade that is not clean |
| C108 | PropState | proved: prices, liquidity, protocol fees, positions and what they have earned decide every later reply (clean histories) |
| C109 | PropTrace | proved: a deposit withdrawn by the next call leaves no trace |
| C110 | PropMix | proved: any two successful orders of a block of deposits, withdrawals and claims by different people agree; withdrawals first always succeeds; some other order can fail (refuted) |
| C111 | PropCurve | proved for all reachable states: trades and quotes depend on the liquidity curve, the prices and where positions end, not on who holds what; refuted without the last condition |
| C112 | PropName | proved for all states and call sequences: renaming accounts and tokens changes nothing but the names; refuted if the order of two token names changes |
| C113 | PropLess | An order that is accepted can be made smaller: a smaller falling request is accepted and costs no more; a smaller rising offer is accepted or refused as a swap without gain (tier fee ≤ 99 %, a ≤ 10^29, room in the protocol counter). Refuted for falling offers (1008 accepted, 1007 refused) and, through gas, for rising requests. |
| C114 | PropTwin | proved for all states and histories: the owner's NFT calls have the outcome of the native ones, delegates move tokens to the owner's effect, sending is transferring plus a notice; refuted without the condition that the receiver is an address |
| C115 | PropRange | proved: splitting the range of a deposit leaves pools and liquidity the same and costs, earns and pays the same up to rounding; unnoticed by all later trades if some position already ends at the middle (without that, C111_ends_refuted shows a difference) |
| C116 | PropUndo | proved: a deposit just made can be removed by the next call in every reachable state and pays back what was paid up to rounding; a later removal can be refused without any trade in between (`C116_later_refuted`) |
| C117 | PropReply | proved: which queries are answered, which are refused and which abort, as an equivalence for every query but the two quotes |
| C118 | PropTell | proved: equal answers to all queries mean equal data, and equal data mean equal outcomes of every later history and equal answers and quotes after it |
| C119 | PropSay | proved: what every query answers, and that the paged listings are complete; the tick count of a reversed range may count ticks outside it (`C119_reversed_refuted`) |
| C120 | PropGuard | proved: a deposit costs no more than at the price limits given with it, and what it costs is monotone in the price |
| C121 | PropGov | proved: no act of the admin or of a fee receiver changes what deposits, claims, withdrawals and transfers are answered |
| C122 | PropRule | proved: handing over the administration, listing and removing tiers and naming receivers change the answer to no trade, quote or deposit |
| C123 | PropTerms | proved: who trades or opens a pool makes no difference but for who pays and receives, and deposits are alike for everyone |
| C124 | PropGrant | proved: approvals and operators change the answer to no call but those that use them |
| C48 | PropSdkLiq | refuted (report short by 1 unit, or 250 at a low price); bound proved |

## Findings about the code

* **Skipped tick.** A rising swap whose limit price is exactly an initialized tick's price stops there, re-derives the
  current tick from the price and so passes the tick without crossing it. A falling exact-input swap that crosses a tick into
  liquidity so deep that its rest no longer moves the price is put back on that tick without the crossing being undone: no limit
  is needed, a sale of 550 tokens makes 10^32 of liquidity active where it is not, and the next buyer gets 994994 tokens from a pool
  that never held 1100 (`C95_phantom`). It can also pass a tick by the landing error below. C95 shows that there are no other ways. The pool's active liquidity is then wrong for
  good: positions can become stuck (C17), fees are granted several times (C16), the pool can be drained (C15, C27), later
  swaps panic in the crossing (C43), a few swaps in one pool yield both tokens for nothing (C51), one withdrawal can block
  another (C52).
* **Landing price.** A falling exact-input step can land below its target or limit and charge more than offered (C03, C19).
* **Native coins.** Each hop of a route returns the unused part of the whole attached coin, so a route that takes a coin
  twice returns it twice (C15, C36). Coins of a zero deposit, of another denomination, or attached to other calls are kept.
* **Burn by a spender** removes the caller's own position at the token's index (C33).
* **Token paging.** `tokens` treats `start_after` as the first index to return, so paging repeats tokens and with page size 1
  never ends (C54).
* `TransferNft` and `SendNft` do not validate the recipient's address, unlike `TransferPosition`.
* **Protocol fee** above 100% is accepted and makes swaps panic (C46).
* **Refused swaps.** Dust liquidity in front of deep liquidity, and exact outputs, are refused by the "enough amount"
  check; offers above 2^256/10^48 overflow (C25).
* A falling exact-input swap whose step lands exactly on a tick price is refused when the step's rounded-up
  charge plus fee exceeds what is left of the offer, though one unit less and one unit more both pass; in a
  tier without a fee the last step can take one unit more than is left, and the call aborts (C25).
* **Queries.** The tick count query panics on ranges with a full 64-tick chunk (C40), position listings honour any limit
  and overflow on offset + limit (C39), a route quote differs when a pool repeats (C22), an empty route returns the input.
* **Fee tiers** can be listed twice (C35). The listing of a pair goes through the listed tiers: a pool whose tier was removed is
  missing from it although it can be traded, a pool whose tier is listed twice appears twice (C98).
* **A tick ahead attracts the price.** When the amount asked for is just what reaching a tick yields, a rising exact-output swap goes to that
  tick if it exists and stops before it if it does not; a deposit of dust there makes the purchase a few units dearer (C99).
* **Many steps for one purchase.** In a pool with hardly any liquidity at a low price a rising swap for an exact output can miss
  the last unit by rounding again and again; 40 units worth less than one unit of the other token cost 20 of them in ten steps (C97).
* **SDK.** `calculate_x` and `calculate_y` drop fractions, so the reported amount can be too small (C48); the
  simulation has no flag for a zero output, which the contract refuses (C45).
* Token ids are not stable: removing, burning or transferring a position renames the owner's last
  token to the freed id, so a call prepared for one token can act on another one (C58).
* **Responses.** `transfer_position` reports neither token nor parties, `create_position` and `remove_position` name neither pool
  nor index, so holdings cannot be followed from responses alone (C62). A decimal whose fraction is zero is printed with one
  zero too many (the value is right, C60).
* **Decimal library.** Products and quotients in the narrow type overflow early: `SqrtPrice(1.0) * SqrtPrice(1.0)` panics (C64);
  the contract uses the big variants only. `get_liquidity` (tests only) returns a y amount for the wrong liquidity (C68).
  The SDK's `newFeeTier` accepts a fee of 100%, `AddFeeTier` does not (C66).
* A rising swap for an exact output can cost more with a looser price limit that it need not reach: the amount up to the
  limit is rounded down, so a farther limit can seem to yield less than a nearer one (C71).
* **Routes.** Every hop pays its output to the caller and takes its input from the caller. So a route needs an allowance for
  each token in between, and native coins in between must be attached beforehand in the amount the previous hop will give (C86).
  Consecutive hops need not fit together: the second hop then takes the number of tokens the first one gave, of whatever token it
  names.
* The SDK announces pages of 220 pool keys and 126 pools (`getMaxPoolKeysReturned`, `getMaxPoolPairsReturned`); the pool
  listing never returns more than 100, so a client that takes a shorter page for the last one misses pools (C88).
- The fee of a small trade can be far above the advertised percentage: what does not pay for the next representable price is kept as a fee. With liquidity
  10^32 (a step of the price is worth 100 tokens) 50 of 150 tokens are kept at 0.6 percent (`C93_fee_refuted`). The excess is bounded by the worth of one step.
- The fee of a move that ends at a tick is charged on top of what the curve takes, that of a move that stops short as a share of the whole offer. A trader who first buys up to a
  tick and then the rest pays less than who buys all at once: 921428 instead of 912579 tokens at a fee of 50 percent (`C94_split_refuted`). The gain is bounded by the square of the fee (`C94_split_partial`).
- Fees can also vanish: after a swap has stopped exactly on a tick without crossing it, the shares of later charges are computed with the
  old active liquidity while the positions counted in it are out of range, and nobody can claim them (C90).  A stake that begins at such a
  tick is granted what was earned below it (C89).
* A rising swap for an exact output computes a price that may yield one unit too little after rounding. It then takes a second
  step for the last unit, and both steps round their charge and fee up: in a plain pool 888 units cost 910 and 889 cost 908 (C81).
* A falling exact-input swap that lands exactly on a tick pays the fee on what the step took and goes on; one that lands just beyond
  it pays the fee on the whole input and stops. So one unit more can yield 0.01% less in a 1% tier (C82).
- The product in `get_delta_x` is rounded down before the quotient is rounded up. So a deposit in one piece can cost a unit more of token x
  than in two pieces (1 + 1 against 3, `ex_C83_dearer`).
* **Price table.** Each factor of the tick price table is the previous one squared and cut to twelve decimals, not the
  rounded true power. The price of tick 128 is one unit of the twelfth decimal too low, that of tick 131072 more than a
  million; relative to the price this stays below 4.2 parts in 10^9. At the lowest ticks the cut after twelve decimals
  costs up to 6.6 parts in 10^8 (C76, C77).
* `seconds_outside` and the pool's timestamps count milliseconds (C56).
* **Sign of zero.** A tick whose net change is zero stores a sign that depends on the order in which the positions were opened;
  `LiquidityTicks` and `Tick` queries show it. Nothing else depends on it (`C101_invisible`).
* **More liquidity, less out.** The fee of a leg that reaches a tick is charged on top, that of the last leg as a share of the whole. With a little more
  liquidity a trade can stop just short of a tick it reached before and pay the larger fee: at a fee of 50% one percent more liquidity makes the same
  payment yield 5% less (`C102_refuted`). The loss is at most the square of the fee.
* **Requests are cheaper than offers.** A swap for an exact output pays the fee on top of every leg, a swap of an exact input pays it as a share of the
  whole in its last leg. Asking for 40000 at a fee of 1% costs 41657, offering 41657 yields 39996 (`C103_converse_refuted`).
* **Newcomers pay for stuck positions.** After a skipped tick a position can be stuck because the pool counts too little liquidity. A new deposit over the same
  range raises the count, the stuck owner leaves with it, and then the newcomer is stuck, though nobody has traded (`C116_later_refuted`).
* **Counting a reversed range.** `liquidity_ticks_amount` does not check that the lower tick is below the upper one. If both lie in one block of 64 bits the
  query aborts; otherwise it answers with ticks that lie outside the range (`C119_reversed_refuted`).

## Print Assumptions

`Print Assumptions` of every theorem listed in `MANIFEST.json` answers "Closed under the global context": no axioms at
all. `coqchk` lists the seven `Coq.ssr.ssrunder.Under_rel` constants of the standard library because std++ loads that
module; no theorem depends on them.

## Wrong programs

`seeded/LOG.jsonl` records mutated models and the theorems that failed on each.
