# Formal model of lfest-rs: design

## Approach

The simulated exchange of `/repo` is a single threaded state machine. It is modelled as a
computable Gallina state machine `step : config -> exchange -> op -> outcome (exchange * result error out)`:

* `outcome` is `Done x | Panic p`; every `assert!`, `debug_assert!`, `expect`, `unreachable!` and division
  by zero of the code is an explicit `Panic` with its own constructor. The configuration carries the build
  mode (`c_dbg`), so debug assertions fire only in debug builds.
* `result` is Rust's `Result`: errors are data, and state changes made before an error persist.
* Decimals are scaled integers (`Z`, scale `10^D`); `*` and `/` truncate towards zero.
* All public calls are operations: `update_state` with each of the four market update kinds,
  `submit_market_order`, `submit_limit_order`, `cancel_limit_order` (both ids), `amend_limit_order`,
  and the public `check_active_orders`. Order and SmartCandle constructors run inside the operation
  on raw inputs, so histories range over every input a caller can construct.
* `history c ops e outs` says: the list of calls `ops` on a freshly created exchange returned `outs` and
  left the state `e` (no call panicked). Theorems quantify over all histories, all states
  reachable by them, or all states whatsoever. There are no bounds on lengths, prices, quantities or scale.

## Files

* Model, one file per part of the code, each definition citing the lines it models: `Base` (outcomes, panic
  sites, decimals), `Types`, `Filters`, `Accounting`, `Currency`, `Position`, `OrderBook`, `OrderMargin`, `Risk`,
  `MarketUpdate`, `Tracker`, `Exchange`, `Untracked`, `Stats`, `Data`, `Helpers`, `Moments`, `Width`, `Fixed`, `Clone`, `Defaults`, `Wrapped`, `Release`, `Custom`, `Tracked`, `Ledger`, `Float`, `FloatStats`, `Derived`, `Figures`, `Numbered`, `Program`, `Bench`, `Printed`, `Messages`.
* `ModelTests`: the tests of the repository transcribed as computations on the model. All of them pass except
  `position_change_position_2`, see finding 3. `position_change_position`, which uses an accounting without money, is in `MockTests`.
* Specifications, independent of how the model computes: every file called `Spec*`. `Spec` holds the trade
  ledger (average price, realised profit, fees) and reads the list of fills off the *results* of the calls.
* Scenarios used by examples and refutations: `Scenario*`.
* Property theorems, and nothing else than these and their examples: `P_*`. Each theorem is closed by `exact` of a
  lemma from the proof files (all other files) and followed by `Print Assumptions`.

`properties.jsonl` lists the properties, `MANIFEST.json` the theorems for each. A property that is false of
the code is answered by a theorem named `..._refuted` (a concrete history, evaluated by the kernel) together with
what does hold; the note in the manifest says so.

## Trusted base

* Coq 8.16.1's kernel (including `vm_compute`) and its standard library.
* Axioms: none of our own. `Print Assumptions` says "Closed under the global context" for every theorem in the
  manifest. `coqchk` and the gate list seven parameters of the standard library's module
  `Coq.ssr.ssrunder.Under_rel` because `Lia` loads ssreflect; no theorem depends on them.
* The reading of `/repo` (cited per definition), and Rust's semantics of the constructs used.
* `const-decimal` (not vendored, so trusted from its documentation and uses): `+ - < =` are exact integer operations on
  the scaled value, `a * b` is `trunc(a * b / S)`, `a / b` is `trunc(a * S / b)` and panics for `b = 0`, `%` is the
  integer remainder and panics for 0. `try_from_scaled` is exact for values that fit; for others both refusing and truncating are
  covered by the theorems that mention it (C55, C67). `+` and `-` of `Fixed` and `Wrapped` are those of the underlying integer: a panic with
  overflow checks (debug), two's complement wrap-around without (release).

## What is modelled

| code | model | how |
|------|-------|-----|
| `exchange.rs` | `Exchange` | every public call and helper, in order of effects |
| `accounting/*` | `Accounting` | all six accounts, transfers with their assertions |
| `position.rs`, `position_inner.rs` | `Position` | complete |
| `active_limit_orders.rs` | `OrderBook` | arena with `swap_remove`, capacity error |
| `order_margin.rs` | `OrderMargin` | second copy of the orders, the margin algorithm |
| `risk_engine/*` | `Risk` | complete |
| `order_filters/*`, `contract_specification.rs`, `config.rs`, `types/{fee,leverage}.rs` | `Filters` | constructors and validation |
| `market_update/*`, `market_state.rs` | `MarketUpdate` | four update kinds, SmartCandle construction, quantity consumption |
| `types/{limit_order,market_order,order_status,order_update,order_meta}.rs` | `Types`, `OrderBook`, `Filters` | type states as separate records |
| `types/smol_currency/*` | `Currency` | conversions, pnl for both kinds |
| `account_tracker/full_track.rs` | `Tracker` | integer fields and getters |
| `sample_returns_trigger.rs` | `Tracker` | complete |
| `account_tracker/no_track.rs` | `Untracked` | the exchange instantiated with the empty tracker |
| `account_tracker/full_track.rs`: `buy_volume_ratio`, order ratios, `Display` | `Stats` | the decimal or the integers before conversion to `f32` |
| `load_trades_from_csv.rs`, `trade_aggregation.rs` | `Data` | parsed records; reading the file, parsing numbers and the conversion to `f64` are not modelled |
| `types/smol_currency/*`: `price_paid_for_qty`, `quantize_round_to_zero`, `Signed`, `new` | `Helpers` | `abs_sub`, `from_str_radix`, `Hash` and `Into<f64>` are not modelled |
| `account_tracker/statistical_moments.rs` | `Moments` | exact rationals instead of `f64`; square root and 3/2 power by their squares |
| all files of the exchange once more | `Width`, `Fixed` | with checked `w` bit integers |
| `#[derive(Clone)]` of the exchange, and the capacities it loses | `Clone` | `Vec` growth as in the standard library |
| `contract_specification.rs`: `Default`; `mock_exchange.rs` | `Defaults` | the ticker and `MarkMethod` are not modelled |
| account-touching functions once more, ledger as a parameter | `Wrapped` | totals wrap around as in a release build |
| all files of the exchange a third time | `Release` | `w` bit integers that wrap around, as without overflow checks |
| `update_state`, `check_active_orders` for any `MarketUpdate` type | `Custom` | implementations are functions of their arguments that return or panic |
| all functions that call the tracker, for any `AccountTracker` type | `Tracked` | implementations are functions of the tracker and their arguments that return or panic |
| all functions that touch the accounting, for any `TransactionAccounting` type, and `MockTransactionAccounting` | `Ledger` | implementations are functions that return, return an error or panic |
| `utils.rs`: `decimal_from_f64` | `Float` | doubles with correct rounding; one zero; `powi` taken to be correctly rounded |
| `account_tracker/full_track.rs`: order ratios in `f32`; `statistical_moments.rs` in `f64` | `FloatStats` | one zero; `powf(1.5)` taken to be correctly rounded |
| `account_tracker/full_track.rs`, `load_trades_from_csv.rs`, `trade_aggregation.rs`, `smol_currency`: derived numbers on machine integers | `Derived` | checked arithmetic as in `Fixed` |
| `account_tracker/full_track.rs`: statistics fed and risk figures in floating point | `Figures` | the crates `sliding_features` and `quantogram` and `Decimal::to_f64` are a parameter; one zero |
| `accounting/*`: account numbers, lookup errors, `account_from_int` and what `Debug` of a transaction needs | `Numbered` | numbers are naturals; unbounded amounts |
| `examples/basic.rs` | `Program` | random coins are a parameter; printing and timing left out; unbounded numbers |
| `benches/*.rs` except `decimal_comparison.rs` | `Bench` | the recorded trades are a parameter; timing left out; unbounded numbers |
| `Display` of updates, market state, position, balances, order states, price filter | `Printed` | how const_decimal prints a number is a parameter; `Debug` output left out |
| error texts, `Display` of executed market orders | `Messages` | how numbers and user order ids are printed are parameters |

Simplifications (also stated at the definitions):

* Integers of the model are unbounded. `Fixed` repeats the exchange with every arithmetic operation on `i32/i64/i128`, `u64` counters and
  `i64` timestamps checked; the two agree until the first overflow (C62), C69 lists the numbers that decide whether there is one, and within explicit
  limits on prices, volume and the number of orders there is none (C64). `Wrapped` is a release build whose ledger totals wrap around
  (C68). `Release` is a build without overflow checks altogether, in which sums, differences, negations, counters and times wrap around (C70);
  `*`, `/` and `%` of const_decimal are taken to panic when the result does not fit, in every build. `Derived` does for `Stats`, `Data` and `Helpers` what `Fixed` does for the exchange (C78).
* `Vec::with_capacity(n).capacity()` is taken to be exactly `n`, and `Vec::clone` is taken to allocate exactly its length, as the standard library does.
* Generic parameters (currency, user order id type) are one config field `c_kind` and `Z`. `Custom` takes market updates of any type that
  implements the public trait (C71), `Tracked` account trackers of any type (C72), `Ledger` accountings of any type (C74).
* Log output, `Debug` formatting, `Display` beyond `Printed` and `Messages`, `serde`, and getters that only return a field are left out.
* The tracker's f32/f64 statistics are in `Figures`, where what comes from the crates `sliding_features` and `quantogram` (returns, drawdown, deviations, quantiles) is a parameter: what they are fed and what is made of their answers is modelled, what they compute is not. The order ratios and `statistical_moments` are in `Stats` and `Moments` as exact numbers and in `FloatStats` as computed.
* The `ids_to_remove` scratch vector is local in `Exchange`; its debug assertion about spare capacity is in `Clone`, and C66 proves that it never fires unless the exchange is a copy.

## Findings

Numbers in brackets are the properties whose theorems show the behaviour.

Margins and money:

1. A market order or a liquidation next to resting orders does not recompute the reserved order margin, which is then
   stale; a later cancel or fill can hit an assertion (C15, C39, C40).
2. When adding to a position lowers the required margin, the code transfers the difference in the wrong direction (C27).
3. The truncated average entry price makes the margin released at close differ from the margin posted: the debug build
   panics, the release build leaves margin posted on a flat account (C27). The repository's own test
   `position_change_position_2` does this.
4. Inverse positions use the arithmetic mean of prices. The entry value is then too low: longs lose and shorts are overpaid
   (a short sold for 1 + 3 and bought back for 6 earns 3), and position margin leaks or the debug build panics (C26, C27, C47).
5. Truncation of the entry price makes money at constant quotes: buy 0.1 twice at 1.9, sell 0.2 at 1.8, gain 0.1 (C46).
6. The risk check of a flipping market order ignores the loss and fees it realises; the wallet becomes negative (C18, C20).
7. A price gap liquidates with a loss larger than the margin: negative wallet, and later a wallet assertion panics (C20, C22).
8. Inverse longs can lose more than their margin before they are liquidated if mm > imr / (1 + imr) (C22).
9. Negative fees (rebates) are never credited (C25). Fees due are not reserved (C20).
10. A transfer of amount zero panics (C39, C40).

Orders:

11. One trade fills every crossing order up to the full trade quantity (C43).
12. A rejected amend has already cancelled the original order (C14).
13. Rejected orders consume order ids (C11).
14. `max_num_open_orders` above 10000: the two copies of the book get out of step and then cancels panic (C45).
15. Two hedged orders at the same price: rounding makes the requirement depend on book order, so that removing an order can raise
    it and a cancel panics (C16, C39).
16. A liquidation of a position above the largest order quantity or off the quantity tick panics (C41).
17. A market order before the first market update panics (C39).
18. The average price reported for a partially filled order drifts from the limit price by truncation (C08).

Configuration and data:

19. The filter constructors panic for tick size 0 when a minimum is given (C33).
20. Leverage above the decimal scale gives initial margin 0 (C32).
21. Without a minimum price, zero and negative prices pass validation (C33); entry prices can round to zero (C26).
22. The liquidation price of a long is truncated (C21).
23. **Fills are not checked for liquidation** (C49). `update_state` checks the maintenance margin before it executes the
    resting orders. A candle that fills a buy at 99 and ends at a bid of 40 leaves the account with a position that is due
    for liquidation at the quote just installed, and `update_state` reports success.
24. **A wide spread liquidates a fresh position** (C49). A market order is admitted whatever the spread. When the spread
    exceeds the maintenance margin, the new position is due at once and repeating the same quote liquidates it.
25. **A fresh tracker reports a loss of the whole balance and cannot be printed** (C52). `rpnl` is the last sampled balance
    minus the starting balance, and the last sampled balance starts at zero. For linear contracts `buy_and_hold_return`,
    and with it `Display`, divides by a first price of zero and panics before the first update.
26. **Realised profit lags** (C52). Orders never change `rpnl`; an update changes it only when it takes a sample, and then to
    the balance before the update's own fills.
27. **Times may go back until the statistics are read** (C52). `update_state` accepts decreasing timestamps;
    `num_trading_days`, and with it `Display`, then panics. A first timestamp or first price of zero counts as not set.
28. **Loaded sells have a negative quantity** (C54). `load_trades_from_csv` sets the side from the sign of the size and also keeps
    the sign in the quantity. A loaded sell that crosses a resting buy makes `update_state` panic in every build, no
    `SmartCandle` can be built from loaded trades with a sell in a debug build, and `TakerTrade::size` negates the quantity
    a second time, so that the aggregation library sees every loaded trade as a purchase.
29. **Rounded quantities can be refused** (C55). A quantity rounded by `quantize_round_to_zero` to the filter's tick size is
    accepted only when the filter's minimum is a multiple of the tick size.
30. **The price of a small inverse purchase is zero** (C55). `price_paid_for_qty` for inverse contracts returns zero when the cost
    truncated to zero.
31. **Constant samples have no skew or kurtosis** (C56). `statistical_moments` divides by the variance; for constant samples (and for the
    mean of an empty one) this is zero by zero.
32. **Ledger totals grow without bound** (C63). Accounts keep the sum of all debits and of all credits ever booked and never net them.
    Placing and cancelling one order often enough overflows every integer type, without a trade. With `i32`, four decimals, a balance of
    1000 and an order worth 891 the 120th repetition overflows in a debug build (`+` panics) and the 240th in a release build, where `+`
    wraps around. There it does no harm: balances are differences of totals and stay exact (C68).
33. **The default contract panics for a long-only trader without leverage** (C65). `ContractSpecification::default` has leverage 1 and a
    maintenance margin of one half. A trader who owns one contract and offers it in a resting sell order needs no order margin. When
    the price falls by half the position is liquidated, the sell order stays, and the next cancellation panics because no margin was reserved for it
    (`C65_maintenance_needed`). With a maintenance margin fraction of 1 such a trader is safe in release builds. In debug builds
    closing a position whose average entry price was rounded still panics (`C65_debug_refuted`).
34. **A copy of an exchange is crippled** (C66). `Exchange` derives `Clone`, and the limit on open orders is the capacity of the vectors
    that hold them. `Vec::clone` does not keep spare capacity, so a copy can never hold more orders than rested when it was taken: a copy
    of an exchange without orders refuses every limit order with `MaxNumberOfActiveOrders` (`C66_copy_refuses`). In debug builds
    a copy panics at the first trade or candle that completes no order, because `ids_to_remove` has lost its capacity too
    (`C66_copy_debug`). Both are witnessed in `C66_nonvacuous`.

35. **The default contract needs four decimals** (C67). `ContractSpecification::default()` builds its fees with
    `try_from_scaled(2, 4)` and halves one for the maintenance margin. With one to three decimals the fees cannot be represented: it
    panics or, if the decimal library cuts them off, trading is free. Without decimals it always panics. `C67_mock_safe_refuted`
    shows a panic (cancelling an order after a liquidation) on `mock_exchange_linear`, the exchange the crate's own tests use.

36. **In a release build the funding check can overflow to "funded"** (C70). `margin_req + fee > available_wallet_balance`
    (`isolated_margin.rs:143,191`) adds without a check. If the sum leaves the type it is negative and every order passes (`C70_unfunded_check`).
    With `i32`, `i64` and `i128` an account without leverage buys for more than 200 times its capital in one order, and its
    wallet becomes negative (`C70_funded_positions_refuted`). A debug build panics instead.
37. **Sales can add up to a negative short position** (C70). `increase_contracts` adds quantities without a check. Two sales of
    0.6 times the largest number leave `Short` with a negative quantity, and the next order panics (`C70_positive_positions_refuted`).
38. **Limit orders can wrap around the order margin** (C70). The sum of the order values wraps to a negative number, so the larger of the two
    sides is a small one: orders worth more than 200 times the reserved margin are accepted (`C70_reserved_orders_refuted`).
39. **An accounting of one's own cannot read the transactions it is given** (C74). `TransactionAccounting` is public, but the fields of
    `Transaction` have `pub(crate)` getters (`accounting/transaction.rs:16-20`), so an implementation outside the crate can only learn
    them from `Debug` output. Errors it returns are passed on by order submission but make every other call panic
    (`C74_market_error`, `C74_limit_error`, `C74_cancel_error`).
40. **Conversion from `f64` fails silently** (C76). `decimal_from_f64` returns `Ok(0)` for NaN and goes through `i64` even for 128 bit
    decimals: with 10 decimals 10000000000.0 becomes 922337203.6854775807 without an error (`C76_nan`, `C76_wide_refuted`).
41. **Moments of constant returns are noise** (C77). In `f64` a constant sample need not have variance zero: ten times 0.1 has a mean
    below 0.1, a variance of about 10^-34 and an excess kurtosis of -2 instead of NaN (`C77_constant_refuted`,
    `C77_constant_kurtosis_refuted`). For samples whose sums are exact
    it is NaN (`C77_grid_constant`).
42. **Printing the tracker can overflow after calls that did not** (C78). The turnover is a sum that no call computes: with `i32` and four
    decimals it overflows after 120 round trips of 9 contracts at 100 (`C78_turnover_refuted`), and with it `buy_volume_ratio` and `Display`. The return
    of buying and holding overflows if the first price was tiny, without a single trade (`C78_hold_refuted`), and the trading days if
    updates are stamped before the epoch (`C78_days_refuted`). The realized profit never does (`C78_rpnl`).
43. **A discriminant ratio above 1 need not mean that the user did better** (C79). The documentation says so. It does mean a higher return
    per risk (`C79_d_ratio_outperforms`). If both lose, it favours the greater risk: a user who lost 3.6 % per interval to the market's 1.0 %
    gets 1.6 (`C79_d_ratio_refuted`). Printing the tracker panics if the variance of the returns is not a number (`C79_kelly`), for example
    after a balance whose logarithm is not one.
44. **How an account is wound down matters** (C82). Cancelling from the end of the book and then closing always works if the reserved
    margin is right and the closing order is accepted (`C82_wind_down`). Cancelling from the start can panic (`C82_oldest_first_refuted`), and so can cancelling after
    closing (`C82_close_first_refuted`). In release builds position margin can stay behind without a position (`C82_all_in_wallet_refuted`).
45. **Rounding can be milked without end** (C83). With whole contracts an account wins nothing while the quote stands (`C83_no_profit`). With
    fractions the average entry price is truncated towards zero, below every price paid. Buying in pieces and selling at once wins at an
    unchanged quote, without limit and in either build (`C83_fractions_refuted`). Fees of small orders truncate to zero (`C83_free`), so that an
    order in pieces can avoid them (`C83_fees_avoided`); the gain is at most two units of the last decimal place per further piece (`C83_fee_pieces`).
46. **The example program hardly ever trades and can crash** (C84). It does not round the size of its orders to the quantity step of one
    contract. Almost every order is refused, and while no price is a whole number nothing is ever traded (`C84_never_trades`). If orders do
    go through, turning around a position bought at two prices fails an assertion (`C84_flip_refuted`), a debug build does not survive a liquidation
    (`C84_liquidation_debug_refuted`), and at a price of 10000.0 it spends its money until it crashes (`C84_high_prices_refuted`).
47. **A higher leverage can refuse more** (C85). It never does while the posted margin is no larger than with the lower leverage
    (`C85_accepts`). In release builds margin of a position that is closed in pieces stays behind, and more of it with the higher leverage,
    until an order is refused that the lower leverage allows (`C85_accepts_refuted`).
48. **A candle that opens a position does not liquidate it** (C86). The liquidation check of an update comes before its fills. A candle that falls
    through a resting order and ends far below it leaves a position that is due for liquidation; it is liquidated when the same candle
    is sent again (`C86_candle_refuted`). A quote sent again never does anything (`C86_repeat`).
49. **Which orders of a batch are accepted can depend on the order in which they are sent** (C88). Not without a position, without ties or
    without rounding (`C88_any_order`). With a long position, two offers at one price and values that round, the second of the two is refused
    if they are sent the other way round (`C88_any_order_refuted`), and orders that were accepted cannot be cancelled in every order without
    a panic (`C88_undone_refuted`).
50. **Looser limits can refuse more** (C89). Up to the first order that a limit refuses nothing changes (`C89_same`). An order that is accepted
    only with looser limits can take the money that a later order needs (`C89_more_refuted`).
51. **A larger maintenance margin liquidates later** (C85). The documentation of the risk engine calls the maintenance margin the minimum that
    must be maintained, so a larger one should liquidate sooner. The liquidation price is the entry price times one minus the maintenance margin
    for a long, and times one plus it for a short, which is further away for a larger one. Nothing changes before a liquidation (`C85_maintenance`), and a
    position that is liquidated with a maintenance margin of one half survives with four fifths (`C85_maintenance_refuted`). With a fraction of
    one the loss at the liquidation price is the whole margin.

52. **The fee reserve of market orders covers only the order itself** (C90, `src/risk_engine/isolated_margin.rs:136-146`). An order that adds to the
    position is refused unless its margin and its fee fit into the wallet, but the fee is not set aside: it stays outstanding until the position is
    reduced. So 9.5 contracts at 100 with a fee of ten percent and 1000 of money are refused at once and accepted as 9 and 0.5
    (`C90_whole_refuted`), and the fees due then exceed the wallet. `C90_adding_exactly` is the exact condition.
53. **Whether a position can be turned round depends on how it is ordered** (C90, `src/risk_engine/isolated_margin.rs:147-165`). The check of one large order
    counts the position margin as free money but neither the profit nor the loss of the close. After a loss the one order is accepted (and leaves
    a negative wallet, `C18_flip_refuted`) where closing and opening again is refused; after a win it is refused where closing and opening again is
    accepted (`C90_flip_refuted`). Closing in parts also rounds: a debug build panics and a release build leaves margin behind that belongs to
    no position (`C90_closing_refuted`, `C90_margin_left_refuted`).
54. **Dividing a limit order fills more of it** (C91, a consequence of finding 11). The same trade of 1.5 fills 1.5
    of one bid for 2, and all of two bids for 1 at the same price (`C91_same_refuted`); `C91_filled` is the exact amount and its bound. Because the
    values of the parts are rounded down separately, parts can also be accepted where the whole is refused (`C91_whole_refuted`).
55. **An order that is never filled can change the profit** (C92, `src/active_limit_orders.rs:126,143`). Removing an order puts the last one
    in its place, and orders are filled in the order of the list. A resting order that the market never reaches therefore decides which of two other
    orders is filled first, and so which one closes a position and which one opens the next (`C92_profit_refuted`); in a debug build it decides
    whether the update panics (`C92_panic_refuted`). Quantities never change (`C92_quantities`), and nothing changes if orders are filled one at a
    time (`C92_same`).
56. **Cancelling an order can make another order unaffordable** (C93, `src/order_margin.rs:88-165`, `src/active_limit_orders.rs:126,143`). With a long position
    and two offers at one price, cancelling a bid changes the order in which the offers are stored. One of them then hedges less of the position after
    rounding, and an offer that was accepted before the cancel is refused after it, although the wallet has grown (`C93_limit_refuted`).
    Market orders are never affected (`C93_market`).
57. **A better price can be worse** (C94). Selling linear contracts one tick higher raises the fee. When the sale adds to a short position, the average entry price
    is rounded down and may stay the same, so the account is worth one unit less (`C94_adding_refuted`, `src/position_inner.rs:120-155`). The same
    happens when the sale turns a long position round (`C94_turning_refuted`). A higher selling price can also be refused where a lower one is
    accepted (`C94_accepted_refuted`). A lower buying price can panic, because the margin of a small order
    rounds to zero and a transfer of zero is asserted away (`C94_panic_refuted`). Opening and reducing never lose (`C94_opening_and_reducing`), turning round loses at most one unit (`C94_turning`).
58. **A candle fills both sides of the book in the order of the slots** (C96, `src/exchange.rs:582`, `src/market_update/candle_update.rs:52-71`). A candle that crosses bids and offers
    does not say which came first, and the exchange fills them in the order of the stored book. A quote and two large trades at the low and the high fill
    the same orders, but the entry price and the realised profit differ (`C96_two_sides_refuted`). With orders on one side only there is no difference (`C96_candle`).
59. **Margin left behind by rounding makes a later turn-around panic** (C98, `src/position.rs:178-183`, `src/position.rs:234-239`). In a release build, two accounts without
    position and orders and with the same wallet balance differ: the one that had built its last position in two orders still has one unit of position margin posted, and
    a market order that turns a later long into a short panics for it and succeeds for the other (`C98_flat_refuted`, `C99_restart_refuted`). Nothing shows it but the position margin of the balances.
60. **The text of `OrderIdNotFound` leaves out the id** (C100, `src/types/errors/main.rs:23-27`). The error carries the id that was not found, but its text is the same for every id
    (`C100_unknown_refuted`). All other errors can be told apart by their texts (`C100_errors`).
61. **Market data has no identity** (C101, `src/exchange.rs:175-211`). A trade that is delivered twice fills twice (`C101_trade_refuted`), and a candle that fills bids far above its
    closing quote is accepted the first time and liquidates the position the second time (`C101_crash_refuted`): the maintenance margin is checked before the fills, not after. Otherwise a repeated candle does nothing (`C101_candle`), and so does any repeated update that filled nothing (`C101_silent`).
62. **Amending an order to what it already is can lose it** (C102, `src/exchange.rs:382-424`). The order is cancelled and what is left of it is sent as a new one, so an order that
    the quote has moved past (`C102_overtaken_refuted`) or of which less than the smallest quantity is left (`C102_crumb_refuted`) is gone although nothing about it was to change. With two orders at
    one price, a position and rounding the call panics (`C102_tied_refuted`). If what is left could be sent as a new order, the book is free of such ties, the reserved margin is up to date and the wallet is not negative, only the id is renewed (`C102_same`).
63. **Cancel before you trade, or after** (C104, `src/exchange.rs:279-303`, `src/exchange.rs:484-552`). A market order does not recompute the order margin, so whether an order is cancelled before or after it
    decides how the money is split between wallet and order margin (`C104_margin_refuted`), and whether the cancel panics (`C104_after_refuted`). All else is the same (`C104_same`). The same goes for a limit order sent before or after a market order (`C106_margin_refuted`, `C106_same`).
64. **After a liquidation a resting order may not be cancellable** (C105, `src/exchange.rs:213-235`, `src/exchange.rs:484-552`). The order that was to close the position needs margin once the position is
    gone, which nobody reserves; cancelling it panics (`C105_liquidated_refuted`). The same cancel works before the quote, and for all other quotes also after it (`C105_later`).
65. **An amended order forgets what it has filled** (C107, `src/exchange.rs:382-424`). The quantity of an amendment is the total including past fills, but the order it produces counts as unfilled. Repeating
    the amendment raises the quantity by the past fills: an order for two contracts of which one is filled, amended twice to two contracts, buys three in the end (`C107_twice_refuted`).

## Mutation testing

`seeded/LOG.jsonl` has one line per wrong program: the definition edited, the edit, the claim it
breaks, the theorems that no longer prove. Every wrong program is one edit of one model definition in a copy of the development outside this repository; every lemma that no longer
proves is replaced by an admitted one and the build goes on, so that the log lists every theorem that fails.
"Fails" means that its proof uses a lemma whose proof script no longer goes through. This is weaker than being false, as the equivalent programs
show; what the log claims to be broken was judged by reading the edit.

Batches by hand, by property:

- Batch 1 (58 programs) covers every model file of the exchange proper; each wrong program makes at least one theorem of the property it
  breaks fail, and the one deliberately equivalent program is marked as such.
- Batch 2 (55 programs) covers the tracker statistics, the trade files, the rule tables, the untracked exchange and the machine integers;
  it led to a stronger `C48_ratios`.
- Batch 3 covers copies, defaults and wrapping totals: two programs that changed only the allocated size of the book were invisible to all
  theorems, because the smaller book of the order margin always refuses first; `C66_room` now states the sizes. Checks of intermediate
  results in `Fixed` that are never stored were invisible to C62; C69 states them one by one.
- Later batches follow the properties from C70 on. A getter of an accounting of a user's own type was mentioned by no theorem; `C74_getters`
  was added.

Automatic runs change numbers, comparisons, signs and constructors (613 and 546 programs, complete, 87 of which do not type check and are not in the log) and swap arguments or drop updates (743
programs, of which the log lists those that were run and type check) in all model files. They stop at the first lemma that no longer proves; programs that
survive are built again in full. They led to `C08_fill_assertions`, `C52_new`, `C52_trading_days_exact`, `C55_price_paid`, `C55_signs`,
`C66_copy_debug_exact`, `C67_mock_linear` (stronger), `C77_power`, `C80_update`, `C80_volume_ratio` and `C87_setups`. The programs for which still nothing fails are
equivalent, with the reason in the log.

## Print Assumptions per theorem

All: "Closed under the global context".

* C01: C01_books_balance, C01_postings_only_grow
* C02: C02_position_is_sum_of_fills
* C03: C03_wealth_follows_ledger
* C04: C04_resting_orders_bounded, C04_book_assertions_hold
* C05: C05_ids_increase
* C06: C06_quantity_conserved
* C07: C07_finished_never_back
* C08: C08_fills_exact, C08_fill_assertions
* C09: C09_quotes_never_touch_orders
* C10: C10_accepted_rests, C10_verdict
* C100: C100_errors, C100_market_order, C100_unknown_refuted
* C101: C101_candle, C101_silent, C101_trade_refuted, C101_crash_refuted
* C102: C102_same, C102_lost, C102_overtaken_refuted, C102_crumb_refuted, C102_tied_refuted
* C103: C103_left, C103_bids, C103_offers
* C104: C104_same, C104_margin_refuted, C104_after_refuted
* C105: C105_earlier, C105_later, C105_filled_refuted, C105_liquidated_refuted
* C106: C106_same, C106_margin_refuted, C106_money_refuted
* C107: C107_twice, C107_twice_refuted
* C11: C11_cancel_exact, C11_errors
* C12: C12_rejected_inert, C12_rejected_quiet
* C13: C13_round_trip
* C14: C14_amend_exact, C14_amend_outcome, C14_all_or_nothing_refuted
* C15: C15_reserved_margin_bounds, C15_entry_keeps_margin, C15_calm_history_keeps_margin, C15_debug_checks_margin, C15_reserved_margin_refuted
* C16: C16_margin_is_requirement, C16_margin_of_some_arrangement, C16_order_independent, C16_adding_never_lowers, C16_removing_never_raises, C16_order_dependence_refuted, C16_removal_raises_refuted
* C17: C17_filled_at_quote, C17_rejected
* C18: C18_opening_funded, C18_fee_nonneg, C18_flip_refuted
* C19: C19_reducing_admitted
* C20: C20_wallet_guarded, C20_never_negative_refuted, C18_flip_refuted
* C21: C21_liquidation_exact, C21_long_threshold
* C22: C22_linear, C22_inverse, C22_inverse_refuted
* C23: C23_updates_exact
* C24: C24_fees_accrue, C24_fees_paid_never_decrease
* C25: C25_rebates_credited_refuted
* C26: C26_entry_between, C26_market_adds, C26_between_refuted, C26_C27_inverse_refuted
* C27: C27_margin_posted, C27_margin_drift, C27_margin_exact, C27_flat_debug, C27_flat_refuted, C26_C27_inverse_refuted
* C28: C28_smart_candle_exact
* C29: C29_smart_candle_sequential
* C30: C30_step, C30_samples, C30_spaced, C30_bound, C30_exact
* C31: C31_statistics, C31_grow
* C32: C32_leverage_exact, C32_contract_exact, C32_config_exact, C32_margins_in_range, C32_zero_margin_rate_refuted
* C33: C33_quantity_filter, C33_price_filter, C33_market_data, C33_quantity_filter_new, C33_price_filter_new, C33_zero_tick_reported, C33_zero_tick_refuted
* C34: C34_resting_orders_respect_filters
* C35: C35_market_state_mirrors, C35_orders_keep_market
* C36: C36_pnl_laws, C36_pnl_monotone, C36_marked
* C37: C37_builds_agree, C37_builds_differ
* C38: C38_tracker_inert
* C39: C39_entry_panics, C39_submission_total, C39_entry_total, C39_order_entry_refuted
* C40: C40_panics_listed, C40_list_tight, C40_other_assertions_hold, C40_quotes_total, C40_idle_updates_total, C40_margin_assertions_hold, C40_market_updates_refuted
* C41: C41_liquidation_completes, C41_liquidation_blocked, C41_liquidation_refuted
* C42: C42_order_entry_keeps_totals
* C43: C43_trade_fills, C43_trade_overfill_refuted
* C44: C44_mirror
* C45: C45_limit_exact, C45_limit_refuted
* C46: C46_equity_marked, C46_no_money_from_nothing, C46_pump_refuted
* C47: C47_inverse_average_one_sided, C47_inverse_profit_refuted
* C48: C48_fates, C48_once, C48_counters, C48_ratios
* C49: C49_healthy_after_quiet_update, C49_unhealthy_after_fill_refuted, C49_opened_due, C49_same_quote_liquidates_refuted
* C50: C50_close_realises
* C51: C51_trades, C51_reordered, C51_divided, C51_candle
* C52: C52_memory, C52_rpnl, C52_rpnl_step, C52_rpnl_start_refuted, C52_trading_days, C52_trading_days_exact, C52_trading_days_refuted, C52_hold, C52_hold_refuted, C52_volume_ratio, C52_new
* C53: C53_untracked_run, C53_untracked_init
* C54: C54_load_exact, C54_loaded_rows, C54_sells_refuted, C54_sell_panics_refuted, C54_candle_refuted, C54_size, C54_net_volume, C54_loaded_sizes_refuted
* C55: C55_quantize, C55_quantize_fixed, C55_quantized_order, C55_convert_back, C55_convert_exact, C55_convert_add, C55_convert_odd, C55_price_recovered, C55_signs, C55_new, C55_new_value, C55_new_panics, C55_price_paid
* C56: C56_defined, C56_mean, C56_spread, C56_shape, C56_affine, C56_order
* C57: C57_more_money_same_history, C57_more_money_same_call, C57_more_money_refuses_less, C57_more_money_panics, C57_more_money_new_panics
* C58: C58_user_ids_opaque, C58_user_ids_opaque_state
* C59: C59_times_do_not_matter, C59_times_do_not_matter_state
* C60: C60_reference_history, C60_reference_call, C60_reference_wallet
* C61: C61_panics_exactly, C61_returns_exactly, C61_exact_history, C61_same_future
* C62: C62_agreement, C62_call_agreement, C62_wider_type, C62_totals_fit, C62_state_fits
* C63: C63_unlimited_use_refuted, C63_totals_drift
* C64: C64_no_overflow, C64_everyday_i64
* C65: C65_cash_never_panics, C65_cash_debug, C65_debug_refuted, C65_maintenance_needed, C65_leverage_needed, C65_cover_needed, C65_fees_needed, C65_price_needed
* C66: C66_original_unaffected, C66_room, C66_copy_release, C66_copy_returns, C66_copy_bounded, C66_copy_refuses, C66_copy_debug, C66_copy_debug_exact, C66_interchangeable_refuted
* C67: C67_default_exactly, C67_default_small, C67_default_none, C67_default_price, C67_default_quantity, C67_default_valid, C67_mock_valid, C67_mock_linear, C67_mock_tracked, C67_mock_inverse, C67_mock_safe_refuted
* C68: C68_same_functions, C68_release_agreement, C68_balances_exact, C68_release_outlives, C68_unlimited_use, C68_state_fits
* C69: C69_history, C69_call, C69_overflow_iff, C69_width, C69_arithmetic, C69_booking, C69_margin, C69_debug_suffices, C69_release_suffices_refuted
* C70: C70_checked_same, C70_wrapped_same, C70_bounded, C70_machine_integers, C70_double_entry, C70_resting_orders, C70_unfunded_check, C70_funded_positions_refuted, C70_positive_positions_refuted, C70_reserved_orders_refuted
* C71: C71_own_types, C71_ordinary_history, C71_update, C71_check, C71_answers, C71_calls, C71_books
* C72: C72_call, C72_history, C72_panics, C72_full_tracker, C72_full_record, C72_no_tracker
* C73: C73_taker_never_panics, C73_taker_debug, C73_debug_refuted, C73_round_trips, C73_one_way_needed, C73_closable_needed, C73_solvent_needed, C73_heavy_needed, C73_whole_needed, C73_quotes_needed, C73_market_needed
* C74: C74_lawful_same, C74_getters, C74_in_memory_lawful, C74_recorded, C74_in_order, C74_size, C74_only_decides, C74_market_error, C74_limit_error, C74_cancel_error, C74_refusing, C74_mock
* C75: C75_lower_fees_same_history, C75_lower_fees_same_call, C75_lower_fees_refuse_less, C75_lower_fees_panics, C75_lower_fees_new_panics, C75_refusals_matter_refuted
* C76: C76_round_trip, C76_close, C76_nearest, C76_in_range, C76_out_of_range, C76_errors, C76_saturates, C76_wide_refuted, C76_nan, C76_infinite, C76_rounding_lands, C76_rounding_exact, C76_rounding_error, C76_rounding_nearest
* C77: C77_ratios, C77_ratios_exact, C77_ratio_one_refuted, C77_mean, C77_variance, C77_variance_sign, C77_std_dev, C77_power, C77_kurtosis_floor, C77_grid_mean, C77_grid_constant, C77_grid_spread, C77_no_spread, C77_mirror, C77_empty, C77_nan, C77_mean_refuted, C77_constant_refuted, C77_constant_kurtosis_refuted, C77_kurtosis_refuted, C77_undefined_refuted, C77_order_refuted
* C78: C78_statistics_exact, C78_helpers_exact, C78_rpnl, C78_days, C78_ratio, C78_small_turnover, C78_load, C78_turnover_refuted, C78_hold_refuted, C78_days_refuted
* C79: C79_fed, C79_history, C79_same_trading, C79_same_panics, C79_drawdowns, C79_sharpe, C79_sortino, C79_no_loss, C79_kelly, C79_display, C79_higher_mean, C79_volume_ratio, C79_d_ratio_none, C79_d_ratio_outperforms, C79_d_ratio_refuted, C79_d_ratio_blind_refuted
* C80: C80_get, C80_insert, C80_remove, C80_update, C80_om_remove, C80_sort, C80_offset, C80_transaction, C80_transfer, C80_new_position, C80_increase, C80_decrease, C80_remaining, C80_total, C80_fill, C80_tracker, C80_volume_ratio
* C81: C81_same, C81_names, C81_balance, C81_transaction, C81_transfer, C81_trace, C81_sum, C81_order
* C82: C82_cancel_all, C82_any_order, C82_returns, C82_close, C82_wind_down, C82_idle, C82_oldest_first_refuted, C82_close_first_refuted, C82_all_in_wallet_refuted
* C83: C83_no_profit, C83_fractions_refuted, C83_fee_pieces, C83_free, C83_fees_avoided
* C84: C84_setup, C84_calls, C84_finished, C84_order, C84_never_trades, C84_endings, C84_one_sided, C84_flip_refuted, C84_liquidation_debug_refuted, C84_broke_refuted, C84_high_prices_refuted
* C85: C85_only_margins, C85_accepts, C85_liquidates, C85_accepts_refuted, C85_maintenance, C85_maintenance_refuted
* C86: C86_skip, C86_history, C86_samples_refuted, C86_trade_refuted, C86_repeat, C86_candle_refuted
* C87: C87_setups, C87_limit, C87_check, C87_market, C87_replay, C87_replay_refuted, C87_candles
* C88: C88_exactly, C88_result, C88_any_order, C88_fewer, C88_any_order_refuted, C88_cancel, C88_undone, C88_undone_refuted
* C89: C89_same, C89_panics, C89_wider, C89_more_refuted
* C90: C90_same, C90_adding, C90_adding_exactly, C90_adding_enough, C90_whole_refuted, C90_reducing_exactly, C90_closing_refuted, C90_margin_left_refuted, C90_flip_refuted
* C91: C91_margin, C91_accepted, C91_whole_refuted, C91_filled, C91_same_refuted
* C92: C92_quantities, C92_same, C92_profit_refuted, C92_panic_refuted
* C93: C93_market, C93_limit, C93_limit_refuted
* C94: C94_opening_and_reducing, C94_smaller_value, C94_accepted, C94_panic_refuted, C94_accepted_refuted, C94_adding_refuted, C94_adding, C94_turning_refuted, C94_turning
* C95: C95_fills, C95_money, C95_missed_refuted
* C96: C96_same, C96_one_trade, C96_candle, C96_candles, C96_two_sides_refuted
* C97: C97_updates, C97_market, C97_position, C97_inner, C97_balances, C97_pending, C97_filled, C97_filter, C97_left_out_refuted
* C98: C98_alike, C98_flat, C98_flat_refuted
* C99: C99_ids, C99_restart, C99_restart_refuted
