{"id": "C01", "title": "Double-entry conservation", "statement": "After any sequence of API calls the total of all debits posted to the six accounts equals the total of all credits, so the net balances of all accounts (wallet, order margin, position margin, fees, broker, treasury) sum to zero; and no call ever lowers a posted debit or credit.", "quantifier": "every configuration, every build mode and every finite history of API calls that does not panic", "why_tests_cant": "Tests exercise a few hundred hand-written histories; the equation has to survive every interleaving of fills, flips, liquidations, cancels and amendments.", "anchors": ["src/accounting/in_memory_accounting.rs:create_margin_transfer", "src/accounting/transaction.rs:Transaction::new", "src/exchange.rs:Exchange"]}
{"id": "C02", "title": "Position is the signed sum of fills", "statement": "The quantity reported by position() (negative when short) always equals the sum of all buy fill quantities minus the sum of all sell fill quantities reported to the user (market order results, limit order updates, liquidations).", "quantifier": "every history of API calls, every contract kind", "why_tests_cant": "The netting has nine branches (open/increase/reduce/close/flip, long and short); a missed case only shows for particular orderings.", "anchors": ["src/position.rs:change_position", "src/exchange.rs:check_active_orders", "src/exchange.rs:settle_filled_market_order"]}
{"id": "C03", "title": "Wealth follows a simple trade ledger", "statement": "wallet + order margin + position margin, the entry price, the outstanding fees and fees_paid() after any history equal what a five-line ledger computes from the starting balance and the reported fills alone: start + realised pnl - fees paid, average entry price, fees due.", "quantifier": "every history of API calls, every contract kind, every fee rate", "why_tests_cant": "Requires comparing two state machines on unboundedly many histories.", "anchors": ["src/position_inner.rs:increase_contracts", "src/position_inner.rs:decrease_contracts", "src/position.rs:change_position", "src/exchange.rs:user_balances", "src/exchange.rs:fees_paid"]}
{"id": "C04", "title": "Resting orders stay within max_num_open_orders and internal books agree", "statement": "For max_num_open_orders <= 10000 the number of active limit orders never exceeds max_num_open_orders, and the list of resting orders used to reserve margin is at all times the very list returned by active_limit_orders(), so the consistency assertions comparing the two never fire.", "quantifier": "every history of API calls", "why_tests_cant": "Two Vecs are edited by different code paths with swap_remove; equality including element order must hold after every interleaving.", "anchors": ["src/active_limit_orders.rs:insert", "src/active_limit_orders.rs:remove_by_order_id", "src/order_margin.rs:update", "src/exchange.rs:append_limit_order", "src/exchange.rs:check_active_orders"]}
{"id": "C05", "title": "Order ids are unique and increasing", "statement": "Each accepted order gets an id strictly larger than every id handed out before; no two resting orders share an id.", "quantifier": "every history of API calls", "why_tests_cant": "Needs all histories, including rejections and amendments that consume ids.", "anchors": ["src/exchange.rs:next_order_id", "src/types/order_id.rs:incr", "src/active_limit_orders.rs:insert"]}
{"id": "C06", "title": "Limit order quantity is conserved", "statement": "A resting order always has remaining quantity > 0 and filled + remaining equals the quantity it was accepted with; when it is reported fully filled the reported filled quantity is exactly that quantity and the reported average price is its limit price.", "quantifier": "every history of API calls and every resting order", "why_tests_cant": "Partial fills can split an order in unboundedly many ways.", "anchors": ["src/types/limit_order.rs:fill", "src/types/limit_order.rs:total_quantity", "src/exchange.rs:check_active_orders"]}
{"id": "C07", "title": "Finished orders never come back", "statement": "Once an order id has been reported fully filled or returned from a successful cancel, it is never active again, never appears in a later update, and cancelling or amending it yields OrderNoLongerActive.", "quantifier": "every history before and after the event", "why_tests_cant": "A statement about all futures of a state.", "anchors": ["src/exchange.rs:cancel_limit_order", "src/exchange.rs:check_active_orders", "src/exchange.rs:amend_limit_order"]}
{"id": "C08", "title": "Limit orders only fill when strictly crossed, at their limit price", "statement": "A buy (sell) order gets filled by a Trade only if the taker sold (bought) strictly below (above) the limit price, by a Candle only if low < limit (high > limit); the quantity is positive, at most the remaining quantity and at most the trade quantity; an order that is crossed by a positive quantity is filled; the execution price is the limit price.", "quantifier": "every resting order and every market update", "why_tests_cant": "Boundary behaviour over an infinite domain.", "anchors": ["src/market_update/trade_update.rs:limit_order_filled", "src/market_update/candle_update.rs:limit_order_filled", "src/exchange.rs:check_active_orders"]}
{"id": "C09", "title": "Quote updates never touch orders", "statement": "A best-bid-ask update never fills, changes or removes a resting order and reports no order updates; it changes position or balances only when it triggers a liquidation.", "quantifier": "every state and every Bba", "why_tests_cant": "All states.", "anchors": ["src/market_update/bba_update.rs", "src/exchange.rs:update_state"]}
{"id": "C10", "title": "Accepted limit orders are post-only", "statement": "submit_limit_order returns Ok only if a buy's limit price is strictly below the ask and a sell's strictly above the bid; an order that passes filters and margin but crosses is rejected with GoodTillCrossingRejectedOrder; acceptance puts exactly that order (full quantity, unfilled, fresh id, current timestamp) into the book, other orders untouched.", "quantifier": "every state and every order", "why_tests_cant": "All states and prices.", "anchors": ["src/exchange.rs:submit_limit_order", "src/types/re_pricing.rs"]}
{"id": "C11", "title": "Cancel is exact", "statement": "A successful cancel returns an order that was active and matches the given id, removes only that order (all others unchanged), changes no balance except moving released order margin back to the wallet, leaves position and market untouched; a failing cancel changes nothing, and the error tells OrderNoLongerActive for ids already handed out and OrderIdNotFound for ids not yet handed out.", "quantifier": "every state and every id", "why_tests_cant": "All states.", "anchors": ["src/exchange.rs:cancel_limit_order", "src/active_limit_orders.rs:remove_by_order_id", "src/active_limit_orders.rs:remove_by_user_order_id"]}
{"id": "C12", "title": "Rejected submissions have no side effects", "statement": "When submit_market_order or submit_limit_order returns an error (with max_num_open_orders <= 10000), balances, position, resting orders and market state are exactly as before; only the order id counter and the submission counter may have advanced.", "quantifier": "every state, order and error", "why_tests_cant": "All error paths in all states.", "anchors": ["src/exchange.rs:submit_market_order", "src/exchange.rs:submit_limit_order"]}
{"id": "C13", "title": "Submit then cancel is a round trip", "statement": "If a limit order is accepted and immediately cancelled, balances, resting orders (including their order), position and market are what they were, provided order margin was in sync with the requirement before.", "quantifier": "every reachable synchronised state, every accepted order", "why_tests_cant": "All states and orders.", "anchors": ["src/exchange.rs:append_limit_order", "src/exchange.rs:cancel_limit_order"]}
{"id": "C14", "title": "Amend replaces the leaves quantity and is all-or-nothing", "statement": "amend_limit_order on an active order computes the new leaves quantity as old remaining + (new total - old total); if that is <= 0 the order is cancelled and AmendQtyAlreadyFilled returned; if it succeeds, the old id is gone and the new order with that quantity rests under a fresh id; if it is rejected, the original order is still resting.", "quantifier": "every state, id and replacement order", "why_tests_cant": "Rejection paths depend on the margin of all other orders.", "anchors": ["src/exchange.rs:amend_limit_order"]}
{"id": "C15", "title": "Reserved order margin equals the requirement", "statement": "The order margin balance always equals the margin requirement of the resting orders given the current position, so it is zero when there are no orders, and cancel never hits its assertion.", "quantifier": "every history of API calls", "why_tests_cant": "Histories mixing market orders, limit orders and fills.", "anchors": ["src/exchange.rs:cancel_limit_order", "src/exchange.rs:append_limit_order", "src/exchange.rs:check_active_orders", "src/exchange.rs:settle_filled_market_order", "src/order_margin.rs:order_margin_internal"]}
{"id": "C16", "title": "Order margin requirement is the larger unhedged side", "statement": "The margin requirement of a set of resting orders is initial margin x max(value of buys, value of sells), where the position first offsets the opposite side's orders, best price first; it does not depend on the order in which the orders were entered; it never decreases when an order is added nor increases when one is removed.", "quantifier": "every multiset of orders, every position", "why_tests_cant": "Unbounded lists; sorting and partial offsets.", "anchors": ["src/order_margin.rs:order_margin_internal"]}
{"id": "C17", "title": "Market orders execute completely at the quote", "statement": "An accepted market order is filled for its whole quantity at the current ask (buy) or bid (sell), moves the position by exactly that signed quantity, pays the taker rate, and touches no resting order.", "quantifier": "every state and order", "why_tests_cant": "All states.", "anchors": ["src/exchange.rs:submit_market_order", "src/exchange.rs:settle_filled_market_order", "src/types/market_order.rs:into_filled"]}
{"id": "C18", "title": "Accepted exposure increases are funded", "statement": "A market order accepted while flat or in the same direction leaves the wallet at (old wallet - initial margin) >= its taker fee, hence non-negative for non-negative fee rates; an accepted order that flips the position also leaves the wallet non-negative.", "quantifier": "every state with non-negative wallet and every order", "why_tests_cant": "All states; flips depend on unrealised loss.", "anchors": ["src/risk_engine/isolated_margin.rs:check_market_order", "src/position.rs:change_position"]}
{"id": "C19", "title": "Reducing a position is never refused for lack of balance", "statement": "A market order opposite to the position and not larger than it is never rejected with NotEnoughAvailableBalance.", "quantifier": "every state and such order", "why_tests_cant": "All states.", "anchors": ["src/risk_engine/isolated_margin.rs:check_market_buy_order", "src/risk_engine/isolated_margin.rs:check_market_sell_order"]}
{"id": "C20", "title": "The wallet never goes negative", "statement": "The available wallet balance is never negative after any API call.", "quantifier": "every history of API calls", "why_tests_cant": "Gap moves and flips over arbitrary histories.", "anchors": ["src/utils.rs:assert_user_wallet_balance", "src/exchange.rs:liquidate", "src/risk_engine/isolated_margin.rs"]}
{"id": "C21", "title": "Liquidation happens exactly at the maintenance threshold", "statement": "update_state returns Err(Liquidate) iff a long's entry x (1 - maintenance margin) is above the new bid, or a short's entry x (1 + maintenance margin) below the new ask; then the position is closed completely at that bid/ask paying the taker fee, and no limit order is filled or removed; otherwise the position is not closed by the exchange.", "quantifier": "every state and market update", "why_tests_cant": "All states and prices.", "anchors": ["src/exchange.rs:update_state", "src/exchange.rs:liquidate", "src/risk_engine/isolated_margin.rs:check_maintenance_margin", "src/types/smol_currency/quote_currency.rs:liquidation_price_long"]}
{"id": "C22", "title": "Before liquidation the loss is covered by the posted margin", "statement": "While a position is not liquidatable its unrealised loss does not exceed its initial margin (up to one rounding unit).", "quantifier": "every position, price, leverage and maintenance fraction", "why_tests_cant": "Inequality over all prices.", "anchors": ["src/risk_engine/isolated_margin.rs:check_maintenance_margin", "src/types/smol_currency/quote_currency.rs:pnl", "src/types/smol_currency/base_currency.rs:pnl"]}
{"id": "C23", "title": "Order updates report exactly what changed", "statement": "The list returned by update_state contains exactly one entry per order that was filled in that update, and applying those entries to the previous active orders (drop the fully filled, replace the partially filled) gives the new active orders; a partially filled entry equals the order now resting.", "quantifier": "every state and market update", "why_tests_cant": "All states and books.", "anchors": ["src/exchange.rs:check_active_orders", "src/types/order_update.rs"]}
{"id": "C24", "title": "Fees: accrual, payment and monotonicity", "statement": "With non-negative fee rates fees_paid() never decreases and fees_paid() + outstanding fees of the position equals the sum over all fills of value x (maker rate for limit, taker rate for market/liquidation), up to fees not charged on the newly opened part of a flip being charged on the closing part.", "quantifier": "every history", "why_tests_cant": "All histories.", "anchors": ["src/position_inner.rs:decrease_contracts", "src/exchange.rs:fees_paid", "src/types/fee.rs"]}
{"id": "C25", "title": "Rebates are credited", "statement": "With a negative maker fee (rebate) the user's wealth after closing a position reflects the rebate.", "quantifier": "every history with negative fee rates", "why_tests_cant": "Any history.", "anchors": ["src/position_inner.rs:decrease_contracts"]}
{"id": "C26", "title": "Average entry price is between the fill prices and preserves cost", "statement": "After adding to a position the entry price lies between the old entry price and the fill price and quantity x entry price is the total cost paid.", "quantifier": "every position and fill", "why_tests_cant": "All quantities/prices; rounding and inverse contracts.", "anchors": ["src/types/smol_currency/quote_currency.rs:new_weighted_price", "src/position_inner.rs:increase_contracts"]}
{"id": "C27", "title": "Position margin equals initial margin of the position's cost", "statement": "The position margin balance equals initial margin rate x cost of the open position, in particular it is zero when flat.", "quantifier": "every history", "why_tests_cant": "Rounding over arbitrary fill sequences.", "anchors": ["src/position_inner.rs:new", "src/position_inner.rs:increase_contracts", "src/position_inner.rs:decrease_contracts", "src/position.rs:change_position"]}
{"id": "C28", "title": "SmartCandle fills against exactly the crossing taker volume", "statement": "For a candle built from any list of taker trades with positive quantities, a buy (sell) order is filled by min(remaining, total quantity of taker sells (buys) strictly below (above) the limit price), and is not filled iff there is no such trade.", "quantifier": "every list of trades and every order", "why_tests_cant": "Sorting/aggregation over unbounded lists.", "anchors": ["src/market_update/smart_candle.rs:new", "src/market_update/smart_candle.rs:limit_order_filled"]}
{"id": "C29", "title": "SmartCandle agrees with feeding the trades one by one", "statement": "For a single resting order the quantity filled by one SmartCandle equals the total quantity filled when the same trades are applied one at a time in any order.", "quantifier": "every list of trades and every order", "why_tests_cant": "Induction over trades.", "anchors": ["src/market_update/smart_candle.rs", "src/market_update/trade_update.rs"]}
{"id": "C30", "title": "Return sampling cadence", "statement": "The first update samples; afterwards sample instants advance by exactly the configured interval, a sample is taken at most once per update and only when at least one interval passed since the previous sample instant; with non-decreasing timestamps the number of samples by time t is at most 1 + (t - t0)/interval, with equality once the updates are at most one interval apart.", "quantifier": "every sequence of timestamps", "why_tests_cant": "Unbounded sequences.", "anchors": ["src/sample_returns_trigger.rs:should_trigger", "src/exchange.rs:update_state"]}
{"id": "C31", "title": "Account tracker statistics match the history", "statement": "Submission, cancellation, fill counters and buy/sell volume of the FullAccountTracker equal the counts and sums computed from the calls and their results; counters never decrease.", "quantifier": "every history", "why_tests_cant": "All histories.", "anchors": ["src/account_tracker/full_track.rs"]}
{"id": "C32", "title": "Configuration validation is exact", "statement": "Config::new, ContractSpecification::new and Leverage::new accept exactly the documented inputs and report the documented error otherwise; an accepted configuration has initial margin in (0,1], 0 <= maintenance margin <= initial margin.", "quantifier": "every input", "why_tests_cant": "Infinite domain.", "anchors": ["src/config.rs:new", "src/contract_specification.rs:new", "src/types/leverage.rs:new"]}
{"id": "C33", "title": "Order filters decide exactly as documented", "statement": "Quantity and price filters accept exactly the documented ranges/ticks/bands, and filter constructors report InvalidTickSize for a zero tick size.", "quantifier": "every filter and order", "why_tests_cant": "Infinite domain.", "anchors": ["src/order_filters/price_filter.rs", "src/order_filters/quantity_filter.rs"]}
{"id": "C34", "title": "Every resting order respected the filters when accepted", "statement": "Each active order's accepted quantity and limit price satisfy the quantity filter and the absolute price filter rules (min, max, tick).", "quantifier": "every history and resting order", "why_tests_cant": "All histories.", "anchors": ["src/exchange.rs:submit_limit_order", "src/order_filters/price_filter.rs:validate_limit_price"]}
{"id": "C35", "title": "Market state mirrors the last update", "statement": "Bid/ask equal those of the last Bba/Candle/SmartCandle update, the timestamp that of the last update, step counts the updates, and order calls never change market state.", "quantifier": "every history", "why_tests_cant": "All histories.", "anchors": ["src/market_state.rs:update_state"]}
{"id": "C36", "title": "PnL laws", "statement": "Profit and loss is zero at the entry price, antisymmetric in direction, non-decreasing in the exit price for longs (non-increasing for shorts), and unrealised pnl marks longs at bid and shorts at ask.", "quantifier": "every entry, exit, quantity and contract kind", "why_tests_cant": "Infinite domain with rounding.", "anchors": ["src/types/smol_currency/quote_currency.rs:pnl", "src/types/smol_currency/base_currency.rs:pnl", "src/position.rs:unrealized_pnl"]}
{"id": "C37", "title": "Debug and release builds agree", "statement": "If a history runs without panic in a debug build, the release build produces the same results and the same state.", "quantifier": "every history", "why_tests_cant": "Two builds on all histories.", "anchors": ["src/exchange.rs", "src/position.rs", "src/order_margin.rs", "src/market_state.rs"]}
{"id": "C38", "title": "The account tracker does not influence trading", "statement": "Balances, position, orders, market state and call results do not depend on the tracker's state.", "quantifier": "every history and any two tracker states", "why_tests_cant": "All histories.", "anchors": ["src/account_tracker/account_tracker_trait.rs", "src/exchange.rs"]}
{"id": "C39", "title": "Order entry never panics", "statement": "Submitting, cancelling and amending limit orders never panics in any state reached through the public API.", "quantifier": "every history", "why_tests_cant": "Panics depend on particular earlier fills, rounding and market orders.", "anchors": ["src/exchange.rs:submit_limit_order", "src/exchange.rs:cancel_limit_order", "src/exchange.rs:amend_limit_order"]}
{"id": "C40", "title": "Market updates never panic", "statement": "update_state with a valid market update never panics in any state reached through the public API.", "quantifier": "every history and valid update", "why_tests_cant": "Depends on history.", "anchors": ["src/exchange.rs:update_state", "src/exchange.rs:check_active_orders", "src/position.rs:change_position"]}
{"id": "C41", "title": "Liquidation always succeeds", "statement": "When the maintenance threshold is crossed, the position can be closed whatever the quantity filter.", "quantifier": "every state", "why_tests_cant": "Depends on accumulated position size versus max quantity.", "anchors": ["src/exchange.rs:liquidate", "src/order_filters/quantity_filter.rs:validate_order_quantity"]}
{"id": "C42", "title": "Order entry never changes the user's total balance", "statement": "submit_limit_order, cancel_limit_order and amend_limit_order leave wallet + order margin, position margin, fees paid and position unchanged, whether they succeed or fail.", "quantifier": "every state and order", "why_tests_cant": "All states.", "anchors": ["src/exchange.rs:append_limit_order", "src/exchange.rs:cancel_limit_order"]}
{"id": "C43", "title": "A trade fills no more than its own quantity", "statement": "The total quantity of limit order fills caused by one Trade update does not exceed the trade's quantity.", "quantifier": "every state and trade", "why_tests_cant": "Depends on the number of crossed resting orders.", "anchors": ["src/exchange.rs:check_active_orders", "src/market_update/trade_update.rs:limit_order_filled"]}
{"id": "C44", "title": "Market and order side symmetry", "statement": "Mirroring every fill's side (long <-> short) mirrors the position and negates the realised pnl, with identical margins and fees.", "quantifier": "every sequence of fills", "why_tests_cant": "All sequences.", "anchors": ["src/position.rs:change_position", "src/position_inner.rs:decrease_contracts"]}
{"id": "C45", "title": "Open order limit is honoured for every configured value", "statement": "An order beyond max_num_open_orders is rejected with MaxNumberOfActiveOrders and the exchange stays consistent, for every accepted configuration value of max_num_open_orders.", "quantifier": "every configuration", "why_tests_cant": "Requires thousands of resting orders.", "anchors": ["src/exchange.rs:new", "src/exchange.rs:append_limit_order", "src/active_limit_orders.rs:insert"]}
{"id": "C46", "title": "Equity equals the marked fills", "statement": "For linear contracts, at any mark price the money of the user plus fees paid plus the unrealised profit equals the starting balance plus the profit of every single fill marked at that price; trading at prices without an edge creates no money.", "quantifier": "every history, every mark price", "why_tests_cant": "Relates the average-price bookkeeping to all individual fills of arbitrarily long histories.", "anchors": ["src/position.rs:change_position", "src/position_inner.rs:increase_contracts", "src/position_inner.rs:decrease_contracts"]}
{"id": "C47", "title": "Inverse positions preserve their cost", "statement": "The average entry price of an inverse position values the position at what was paid for its parts, so that realised profit is what was received minus what was paid.", "quantifier": "every inverse position and fill", "why_tests_cant": "All prices and quantities; tests only use single-price inverse positions.", "anchors": ["src/position_inner.rs:increase_contracts", "src/position_inner.rs:decrease_contracts"]}
{"id": "C48", "title": "Every limit order has one fate", "statement": "Every accepted limit order is exactly one of: resting, reported as fully filled, withdrawn by a cancel or an amend; no order has two fates. The tracker's counts of limit orders, complete fills and cancellations add up accordingly.", "quantifier": "every history", "why_tests_cant": "Needs all interleavings of submissions, fills, cancels and amends.", "anchors": ["src/exchange.rs:check_active_orders", "src/exchange.rs:cancel_limit_order", "src/exchange.rs:amend_limit_order", "src/account_tracker/full_track.rs"]}
{"id": "C49", "title": "Account health after updates and orders", "statement": "After a market update answered with success and without fills the position is not due for liquidation at the new quote. With fills this is false. A market order that opens a position leaves it due at once exactly when the spread is wider than the maintenance margin.", "quantifier": "every configuration, reachable state and update", "why_tests_cant": "The failing cases need a fill and a price drop within one update, or a wide spread; tests check neither.", "anchors": ["src/exchange.rs:update_state", "src/risk_engine/isolated_margin.rs:check_maintenance_margin"]}
{"id": "C50", "title": "Closing realises the unrealised profit", "statement": "A market order that closes the whole position changes money plus fees paid by exactly the unrealised profit shown before it at the current quote, and charges the outstanding fees together with its own fee.", "quantifier": "every configuration, reachable state and closing market order", "why_tests_cant": "Equality of two independently computed amounts for all prices, quantities and contract kinds.", "anchors": ["src/position.rs:unrealized_pnl", "src/position.rs:change_position", "src/exchange.rs:submit_market_order"]}
{"id": "C51", "title": "Delivery of trades does not matter", "statement": "For the remaining orders and the position it does not matter whether trades arrive in one order or another, in one piece or in two, or bundled into one candle.", "quantifier": "every reachable book and every list of trades accepted by the exchange", "why_tests_cant": "All books and all trade lists; tests use one order and at most two trades.", "anchors": ["src/market_update/trade_update.rs:limit_order_filled", "src/market_update/smart_candle.rs:limit_order_filled", "src/exchange.rs:check_active_orders"]}
{"id": "C52", "title": "Derived account statistics", "statement": "The tracker's realised profit, buy-and-hold return, number of trading days and share of bought volume are what their names say: profit of the last sample, sign of the price move, days between first and last update, truncated share within [0,1]; they do not panic.", "quantifier": "every history", "why_tests_cant": "All histories and price paths; the refuted parts need an untouched tracker or times that go back.", "anchors": ["src/account_tracker/full_track.rs:buy_and_hold_return", "src/account_tracker/full_track.rs:num_trading_days", "src/account_tracker/full_track.rs:rpnl", "src/account_tracker/full_track.rs:buy_volume_ratio"]}
{"id": "C53", "title": "Tracking does not change trading", "statement": "An exchange with NoAccountTracker and one with FullAccountTracker that receive the same calls return the same results, panic at the same places and end in the same state.", "quantifier": "every configuration, state and list of calls", "why_tests_cant": "Equality of two instances of the generic exchange over all histories.", "anchors": ["src/account_tracker/no_track.rs", "src/account_tracker/full_track.rs:log_trade", "src/exchange.rs"]}
{"id": "C54", "title": "Recorded trades are loaded and handed on faithfully", "statement": "load_trades_from_csv turns every record into the trade it stands for (side from the sign of the size, quantity its magnitude), rejects files with another header or a zero size, and the size handed to the aggregation library has the sign of the side.", "quantifier": "every file content and every trade", "why_tests_cant": "The repository ships no data file and tests neither function; sells are never checked.", "anchors": ["src/load_trades_from_csv.rs:17-60", "src/trade_aggregation.rs:22-42", "src/market_update/trade_update.rs:51-73"]}
{"id": "C55", "title": "Currency helpers", "statement": "Rounding to a quantum gives the next multiple towards zero; converting back and forth, adding parts and recovering the price paid are exact up to one unit; sign and magnitude determine a value; constants are represented exactly when they have at most D decimals.", "quantifier": "every value, price, scale and filter", "why_tests_cant": "Unit tests check one value per helper; rounding cases need all values.", "anchors": ["src/types/smol_currency/quote_currency.rs", "src/types/smol_currency/base_currency.rs", "src/types/smol_currency/margin_currency_trait.rs"]}
{"id": "C56", "title": "Statistical moments", "statement": "The mean lies within the sample, the variance is not negative and zero only for constant samples, skew and kurtosis satisfy Pearson's inequality, do not depend on unit, origin and order, and are undefined exactly for constant samples.", "quantifier": "every sample (exact arithmetic)", "why_tests_cant": "The tests check one random and one fixed sample.", "anchors": ["src/account_tracker/statistical_moments.rs:15-36"]}
{"id": "C57", "title": "More money never hurts", "statement": "A history in which no order is refused for lack of funds goes exactly the same way with any larger starting balance: same answers, same position, orders and margins, only the wallet differs, by the extra money. More money refuses less, avoids only the panics about a negative wallet and an unaffordable liquidation, and panics only where the smaller account panics or refuses.", "quantifier": "every configuration, call sequence and amount of extra money", "why_tests_cant": "Relates two executions with different starting balances for all histories.", "anchors": ["src/exchange.rs:122-146", "src/risk_engine/isolated_margin.rs:39-217", "src/accounting/in_memory_accounting.rs:58-101"]}
{"id": "C58", "title": "User order ids are opaque", "statement": "Renaming the user order ids of a history injectively only renames them in the answers and in the resting orders; nothing else changes, panics included.", "quantifier": "every configuration, call sequence and injective renaming", "why_tests_cant": "Needs all pairs of histories that differ in a renaming.", "anchors": ["src/active_limit_orders.rs:115-144", "src/types/limit_order.rs:21-52", "src/exchange.rs:484-549"]}
{"id": "C59", "title": "Trading does not depend on times", "statement": "Two histories that differ only in the timestamps of their market updates report the same, timestamps apart, panic alike, and lead to the same accounts, position, quotes and resting orders.", "quantifier": "every configuration and pair of call sequences that differ in timestamps", "why_tests_cant": "Needs all pairs of histories that differ in their timestamps.", "anchors": ["src/exchange.rs:175-210", "src/market_state.rs:56-73", "src/types/limit_order.rs:194-264"]}
{"id": "C60", "title": "The exchange is a small reference machine", "statement": "On every history that does not panic, the answers of all calls and the final money, margins, position, quotes, resting orders and next order id are those of a short computable reference machine that knows no accounts, no position variants, no risk engine and no second copy of the book.", "quantifier": "every configuration and call sequence", "why_tests_cant": "A test compares one history; this compares the whole of the exchange with an independent specification on all of them.", "anchors": ["src/exchange.rs:175-690", "src/position.rs:85-260", "src/risk_engine/isolated_margin.rs:39-217", "src/order_margin.rs:33-146"]}
{"id": "C61", "title": "Exactly which calls panic", "statement": "For every call in every reachable state, the reference machine names the first assertion that fails, if any, from the visible state and the arguments alone. The exchange panics at exactly that assertion, and returns exactly when there is none. So every call sequence, panics included, is that of the machine, and two exchanges that look like the same machine behave alike forever.", "quantifier": "every configuration, reachable state, call and call sequence", "why_tests_cant": "A test shows one panic; this states the exact condition of each of the assertions over all states.", "anchors": ["src/exchange.rs:175-690", "src/position.rs:85-260", "src/position_inner.rs:74-228", "src/market_update/smart_candle.rs:40-117", "src/accounting/transaction.rs:59-78"]}
{"id": "C62", "title": "Below overflow the integers might as well be unbounded", "statement": "On signed integers of any width, every call sequence on a fresh exchange either reaches an arithmetic operation whose result does not fit, or returns or panics exactly as it would with unbounded integers. What fits a type also fits every wider type, and after calls without an overflow all twelve ledger totals fit; if the arguments fit too, every number stored or returned does.", "quantifier": "every width, configuration, state, call and call sequence", "why_tests_cant": "Overflows hide in intermediate results that no test inspects; this covers every operation of every call.", "anchors": ["src/types/smol_currency/mod.rs:24-26", "src/exchange.rs:175-690", "src/order_margin.rs", "src/position_inner.rs:74-228", "src/accounting/in_memory_accounting.rs:39-102"]}
{"id": "C63", "title": "An account with bounded balances can be used forever", "statement": "Refuted. The totals of debits and credits are never netted, so for every integer width and every account that can place an order needing margin, repeating submit and cancel of that order finally overflows, although every call would succeed with unbounded integers; each repetition books the margin once more.", "quantifier": "every width, configuration and reachable state in sync in which an order with margin is accepted", "why_tests_cant": "The number of calls needed depends on the width and is beyond any test for i64.", "anchors": ["src/accounting/account.rs:8-49", "src/accounting/in_memory_accounting.rs:39-102", "src/exchange.rs:400-560"]}
{"id": "C64", "title": "Small inputs never overflow", "statement": "If all prices are at most P, all quantities ordered together at most V, and starting capital, V and the number of limit orders and amendments satisfy one explicit inequality, then no addition, subtraction, product or counter in any call overflows w bit integers, and the exchange behaves like the one over unbounded integers. For i64 with five decimals this covers every sequence with prices up to 100000, 1000 contracts, 200000 limit orders and 1000000 units of money.", "quantifier": "every width, valid configuration, price, volume and time bound, and every call sequence within the bounds", "why_tests_cant": "Tests run a few histories; the claim is that no history within the limits overflows anywhere in the code.", "anchors": ["src/exchange.rs:100-700", "src/accounting/in_memory_accounting.rs:39-102", "src/position.rs:60-250", "src/order_margin.rs:60-260", "src/types/smol_currency/quote_currency.rs:1-60"]}
{"id": "C65", "title": "A cash account never panics", "statement": "On a linear contract with leverage 1 and maintenance margin fraction 1, a trader who after every order offers no more than is owned, keeps the fees due and the maker fees of the resting buys in the wallet, and orders at prices of at least one never panics in release builds, whatever the market data is as long as bids are not negative and trades not empty. The wallet never is negative, the position never short and never liquidated. In debug builds only the assertion on the margin released by closing can fire. None of the conditions can be dropped.", "quantifier": "every valid configuration of this kind, every sequence of all public calls that obeys the rules, every market", "why_tests_cant": "The danger lies in rare combinations of a crash of the price, rounding, partial fills and resting orders; a test tries a few.", "anchors": ["src/exchange.rs:100-700", "src/position.rs:60-250", "src/position_inner.rs:60-200", "src/order_margin.rs:60-260", "src/risk_engine/isolated_margin.rs:40-260", "src/contract_specification.rs:60-100"]}
{"id": "C66", "title": "Copies of an exchange", "statement": "For an exchange made by Exchange::new the allocated sizes of its vectors never matter: the debug assertion on the capacity of ids_to_remove never fires, and every history has the outcome of the model without it. A clone behaves in release builds as an exchange whose order limit is the number of orders resting at the moment of cloning, never holds more orders than that, refuses every limit order its original would accept, and panics in debug builds at the first trade or candle that completes no order. So a clone is not interchangeable with its original.", "quantifier": "all valid configurations, all histories of calls and clones, all continuations on a clone", "why_tests_cant": "tests build each exchange with new and never continue on a clone; capacity is invisible to equality checks", "anchors": ["src/exchange.rs:63-64", "src/exchange.rs:130-144", "src/exchange.rs:659-666", "src/active_limit_orders.rs:13-22", "src/active_limit_orders.rs:71-90", "src/order_margin.rs:17-18"]}
{"id": "C67", "title": "Default contract and test exchanges", "statement": "ContractSpecification::default gives leverage 1, maintenance margin one half, fees of 0.02 % and 0.06 %, whole prices up to twice the mid price and whole quantities exactly for currencies with at least four decimals; with fewer it panics or loses the fees. The exchanges of mock_exchange.rs have the configurations their code names and are constructible for every positive balance.", "quantifier": "every number of decimals, balance, price and quantity; both possible behaviours of the decimal library for constants with too many decimals", "why_tests_cant": "Tests use five decimals only.", "anchors": ["src/contract_specification.rs:101-117", "src/mock_exchange.rs:12-101", "src/types/leverage.rs:28-42"]}
{"id": "C68", "title": "In release builds the wrap-around of the account totals is harmless", "statement": "In a release build (no overflow checks on + and -) in which the ledger totals wrap around while every balance and every other quantity fits its machine integer, every call returns the same result or panic as over unbounded integers, all balances are exact, the states differ only in the wrapped totals, and every number stored or returned is a machine integer if the arguments are. In particular placing and cancelling an order, which overflows the totals of every checked integer type, can go on until a 64-bit counter is full with all balances unchanged.", "quantifier": "all bit widths, valid release configurations and call sequences", "why_tests_cant": "Wrapping a 64-bit or 128-bit total takes more calls than any test can make, and that a difference of wrapped totals is still the exact balance is a statement about all totals.", "anchors": ["src/accounting/account.rs:36-49", "src/accounting/in_memory_accounting.rs:58-93", "src/accounting/mod.rs:13-29"]}
{"id": "C69", "title": "An overflow happens exactly when a computed number does not fit", "statement": "For every history a list of numbers can be written down without reference to any integer width: the result of every addition, subtraction, negation, multiplication, division and counter increment that the calls perform, including those only used by assertions, up to the first panic. Over w-bit integers the history overflows exactly when one of these numbers does not fit, and otherwise does what it does over unbounded integers; so, unless a counter or a time overflows, each history needs integers of one definite width. A history that a debug build completes, a release build completes with the same result; the converse fails, since debug assertions add up all accounts.", "quantifier": "all bit widths, configurations and call sequences; single calls in all states", "why_tests_cant": "A test sees that one history overflows or not with one integer type; that no operation is unchecked or checked too strictly is a statement about all operations and operands.", "anchors": ["src/types/smol_currency/mod.rs:24-26", "src/accounting/utils.rs:15-21", "src/order_margin.rs:88-175", "src/position_inner.rs:74-222", "src/exchange.rs:175-690"]}
{"id": "C70", "title": "What a build without overflow checks does when a number does not fit", "statement": "A release build, in which sums, differences, negations and counters wrap around silently, does exactly what the checked build does as long as that one meets no overflow, and what the exchange over unbounded integers does within the size limits of C64. Beyond that every stored and returned number still is a machine integer, debits and credits of all accounts agree up to a multiple of two to the bit width, and the two lists of resting orders stay identical, within the configured limit, with distinct ids and positive prices and quantities. Funding is not safe: the funding check of a market order lets every order pass whose margin plus fee leaves the type, so with i32, i64 and i128 an account without leverage can buy for 200 times its capital and its wallet becomes negative; accepted sales can make a short position of negative quantity; and accepted limit orders can be worth 200 times the reserved margin.", "quantifier": "all bit widths, configurations and call sequences; refutations for i32, i64 and i128", "why_tests_cant": "The repository's tests use debug builds and small numbers; an overflow in a release build is silent, so a test sees neither that it happened nor that everything else still agrees.", "anchors": ["src/types/smol_currency/mod.rs:24-26", "src/risk_engine/isolated_margin.rs:127-147", "src/order_margin.rs:88-175", "src/position_inner.rs:74-222", "src/exchange.rs:175-690"]}
{"id": "C71", "title": "Market updates of a user's own type", "statement": "`update_state` and `check_active_orders` accept any type that implements the public trait `MarketUpdate`. For the types of the crate the generic code is the exchange of the other properties. For any other type, whatever it answers and whatever it does to bid and ask, a call that returns closes a position that is due at the new quote, or else fills each resting order at its limit price by exactly the quantity the update answered, reports just those fills and leaves the order with its remainder. An answer of zero, a negative number or more than the order has left panics. In every state that mixed histories of ordinary calls and such updates lead to, debits equal credits, the two books are identical with distinct ids, within the limit and without empty orders, and ordinary calls behave as the reference machine of C60.", "quantifier": "all configurations, all implementations of the trait that are functions of their arguments, all mixed call sequences", "why_tests_cant": "The tests use only the update types of the crate; the behaviour for foreign types is an open set of programs.", "anchors": ["src/market_update/market_update_trait.rs:8-31", "src/exchange.rs:175-210", "src/exchange.rs:566-690", "src/market_state.rs:56-73"]}
{"id": "C72", "title": "Account trackers of a user's own type", "statement": "`Exchange` is generic over its account tracker and the trait `AccountTracker` is public. Whatever type the tracker has and whatever its methods do to it, a call returns exactly if it returns with the empty tracker and the tracker's methods get through the calls made to them; state and result are then those with the empty tracker. Which methods are called, in which order and with which arguments is given by an explicit list: the market after an update, a balance sample when one is due, a submission per valid order before any check, a fill and a trade per order an update touches, fill and trade of an accepted market order or of a liquidation, and a cancellation per cancelled or amended order. A tracker that never panics does not change which panic ends a history. The full and the empty tracker of the crate are instances.", "quantifier": "all tracker types and methods (functions of the tracker and their arguments that return or panic), all configurations, all states, all call sequences", "why_tests_cant": "The tests only ever use the two trackers of the crate; a tracker of the user's own type is an arbitrary program.", "anchors": ["src/account_tracker/account_tracker_trait.rs:12-55", "src/account_tracker/full_track.rs:279-378", "src/account_tracker/no_track.rs:21-66", "src/exchange.rs:175-210", "src/exchange.rs:237-302", "src/exchange.rs:317-374", "src/exchange.rs:484-549", "src/exchange.rs:582-658"]}
{"id": "C73", "title": "A taker account never panics", "statement": "With any leverage and either kind of contract, a trader who sends market orders only, for whole contracts, at prices at which one contract needs some margin, who never turns a position around in one order, keeps the position at a quantity that may be traded, and gets positive quotes and sees trades and candles only while the wallet is not negative, never makes a call panic in release builds; there is never a resting order or order margin and the position stays a whole number of contracts. In debug builds only the assertion on the margin released by closing can fire, and it does after two purchases at different prices. A trader who opens, closes in full and turns around, but never adds or closes in part, never panics in any build and the margin of the position always is that of its quantity at its entry price. Dropping any one of the rules allows a panic in release builds.", "quantifier": "all valid configurations, all call sequences that follow the rules", "why_tests_cant": "The rules restrict histories of any length; no test explores which order of purchases, sales and price moves reaches an assertion.", "anchors": ["src/exchange.rs:175-232", "src/exchange.rs:237-302", "src/exchange.rs:566-691", "src/position.rs:85-262", "src/position_inner.rs:74-232", "src/accounting/in_memory_accounting.rs:69-102", "src/accounting/transaction.rs:1-79", "src/risk_engine/isolated_margin.rs:39-130"]}
{"id": "C74", "title": "Accountings of a user's own type", "statement": "The exchange is generic in its accounting and the trait is public. Any accounting that answers balances, opens with the money in the wallet and books positive transfers between the seven pairs of accounts the exchange uses can replace the one in memory: same results, state, balances and panics; the in-memory accounting is one of these. The transactions it is given all are positive transfers between those pairs and explain every balance. Whatever the accounting does, resting orders keep distinct ids, quantities and prices and the two books of them agree, a position has a size and an executed market order moves it by its quantity; two accountings that let the same calls through give the same results and states. An error of the accounting is returned by order submission and panics elsewhere; with an accounting whose transfers fail nothing is ever traded, nor with the crate's mock accounting unless takers are paid a rebate.", "quantifier": "all types of accounting, all configurations with a capacity of at most 10000 orders, all call sequences", "why_tests_cant": "No test can run against every implementation of a trait; the crate's tests use one implementation and pass a second one to single functions only.", "anchors": ["src/accounting/mod.rs:13-29", "src/accounting/in_memory_accounting.rs:69-102", "src/mock_exchange.rs:101-124", "src/exchange.rs:122-146", "src/exchange.rs:237-302", "src/exchange.rs:317-374", "src/exchange.rs:426-549", "src/exchange.rs:566-710", "src/position.rs:85-262", "src/position_inner.rs:74-232", "src/utils.rs:44-55"]}
{"id": "C75", "title": "Lower fees never hurt", "statement": "Take a history in which no order is refused for lack of funds. With lower maker or taker fee rates, also negative ones, or more money to start with, the same calls give the same results, quotes, resting orders, position and margins, and the wallet has exactly the saved fees and the extra money more. The next call is answered in the same way unless the higher fees refuse it; lower fees refuse an order only if the higher fees do, avoid no panic but those about a negative wallet or a price that is not positive, and panic only where the higher fees panic or refuse. After a refusal lower fees can cost money, since they let an order through that loses.", "quantifier": "all valid configurations, all lower fee rates and additional starting balances, all histories without a refusal and every next call", "why_tests_cant": "Tests run one fee schedule at a time; that fees influence nothing but the wallet is a statement about pairs of executions of any length.", "anchors": ["src/position.rs:85-262", "src/position_inner.rs:74-232", "src/risk_engine/isolated_margin.rs:39-220", "src/contract_specification.rs:49-56", "src/exchange.rs:151-221"]}
{"id": "C76", "title": "Decimals from floating point numbers", "statement": "decimal_from_f64 turns the double nearest to a decimal with D places back into exactly that decimal, as long as the decimal has at most 2^50 units in the last place, and so every double within a relative distance of 2^-52. In general the result is within half a unit, plus the rounding of one multiplication, of the argument. With 32 bit integers numbers out of range are refused with IntegerConversion. With 64 or 128 bits nothing is refused: what does not fit 64 bits becomes the largest or smallest 64 bit decimal, also when the 128 bit decimal could hold it, and NaN becomes zero.", "quantifier": "all doubles, all numbers of decimals up to 22, all integer widths", "why_tests_cant": "The doubles are too many to try and the rounding error of a product depends on all of its bits; the repository has no test of this function.", "anchors": ["src/utils.rs:57-66", "src/types/errors/main.rs:43-47"]}
{"id": "C77", "title": "Statistics in floating point", "statement": "The fill and cancellation ratio are NaN exactly before the first limit order, otherwise f32 numbers between 0 and 1 within 2^-22 of the exact ratio; up to 2^24 orders they are the f32 nearest to it. The mean and the variance of a sample computed in f64 stay within the bounds of the sample size and are close to the exact ones, the variance is never negative, the standard deviation is the f64 nearest to its root, and skew and kurtosis are NaN if the variance is zero. Negating the sample negates mean and skew and keeps the rest, bit for bit. If the sums are exact, a sample has variance zero exactly if it is constant. In general what C56 proves of exact moments fails: ten times 0.1 has a mean below 0.1, a positive variance and a kurtosis of -2.", "quantifier": "all histories; all samples of doubles, infinities and NaN, bounded ones of up to 2^53 numbers for the error bounds", "why_tests_cant": "Rounding errors depend on every bit of every number; tests compare a few samples up to some digits.", "anchors": ["src/account_tracker/full_track.rs:166-176", "src/account_tracker/statistical_moments.rs:1-36"]}
{"id": "C78", "title": "Derived statistics on machine integers", "statement": "Each statistic of the tracker, what the tracker prints, the loading of trades from a file and the currency helpers overflow exactly if one of a listed set of numbers does not fit, and otherwise give the result over unbounded integers; the cast of the trading days to u32 loses nothing. After calls without an overflow the realized profit does not overflow, nor do the trading days if the updates are stamped after the epoch. The volume ratio overflows exactly if the turnover does, and the turnover does not under the limits of C64. Trades stamped up to the year 2262 load. Turnover, returns of holding and, with times before the epoch, trading days can overflow after calls that did not, and printing the tracker then panics.", "quantifier": "all integer widths, trackers, histories and files", "why_tests_cant": "Tests use small numbers and 64 bit integers; the getters are never called after a long history with 32 bits.", "anchors": ["src/account_tracker/full_track.rs:145-210", "src/account_tracker/full_track.rs:380-417", "src/load_trades_from_csv.rs:32-56", "src/trade_aggregation.rs:22-27", "src/types/smol_currency/quote_currency.rs:86-90", "src/types/smol_currency/quote_currency.rs:129-135"]}
{"id": "C79", "title": "Risk figures of the account tracker", "statement": "Whatever the statistics crates compute, the full tracker feeds them the right numbers: the drawdown of the market every mid price, the user statistics the sampled balances, their returns and, for the downside, just the losing returns. With the statistics the trading and all integer statistics are the same; they can only add panics of their own. Sharpe and Sortino ratio are missing exactly without a deviation or with deviation zero, and otherwise the mean return over the deviation, correctly rounded and of the right sign; the Sortino ratio is missing as long as there was no loss. The Kelly leverage panics, and with it printing the tracker, exactly if the variance is not a number or negative. The share of bought volume stays between 0 and 1 within the rounding. A discriminant ratio above 1 means a higher return per risk than buying and holding; it does not mean a higher return, and a small lead is rounded away.", "quantifier": "all statistics (any states and functions), all histories, all floating point answers", "why_tests_cant": "The figures depend on two external crates; tests compare few numbers and never with NaN, zero deviations or crates that answer oddly.", "anchors": ["src/account_tracker/full_track.rs:21-142", "src/account_tracker/full_track.rs:184-270", "src/account_tracker/full_track.rs:280-324", "src/account_tracker/full_track.rs:380-417"]}
{"id": "C80", "title": "The internal parts for any arguments", "statement": "The parts that the exchange is built from do exactly what their callers rely on, also for arguments the exchange never passes: the book finds, replaces and removes the first matching order, appends new ones unless it is full and fills a gap with the last order; order margin accepts only updates that leave less of an order and panics otherwise, with the right assertion; sorting is stable; a position offsets the first contracts of the orders against it; a transaction needs a positive amount and two accounts; a position pays initial margin when it is opened or added to, averages its entry price, and settles profit, margin and fees when reduced; a fill takes at most what remains and reports the last of it; the tracker and its volume ratio panic just for the documented inputs.", "quantifier": "all books (also with duplicate identifiers), orders, accounts (also overdrawn or unbalanced), configurations and amounts", "why_tests_cant": "These functions are private and only reached through the exchange, which shields them from most inputs; tests of them pick single cases.", "anchors": ["src/active_limit_orders.rs:71-145", "src/order_margin.rs:41-73", "src/order_margin.rs:88-165", "src/accounting/transaction.rs:59-72", "src/accounting/in_memory_accounting.rs:69-93", "src/position_inner.rs:74-232", "src/types/limit_order.rs:176-285", "src/account_tracker/full_track.rs:97-142", "src/account_tracker/full_track.rs:200-211", "src/account_tracker/full_track.rs:356-370"]}
{"id": "C81", "title": "Accounts by number", "statement": "Accounts are numbered machine words looked up in an array. With the exchange no lookup ever fails and no name is unknown, so it trades exactly as if the accounts were a record, with tracing on or off. For other callers: balances and transfers with an unknown number are errors that change nothing (a panic if tracing is on); a transfer between two accounts books the amount to both; within one account it would lose the credit, which is why Transaction::new refuses it; any number of transfers add up and their order does not matter.", "quantifier": "all histories and configurations; all numbers, arrays of six accounts, amounts and lists of transfers", "why_tests_cant": "Tests use the constants only and never two transfers in both orders; the error paths are never taken.", "anchors": ["src/accounting/in_memory_accounting.rs:12-101", "src/accounting/transaction.rs:24-78", "src/accounting/utils.rs:8-26", "src/types/errors/main.rs:33"]}
{"id": "C82", "title": "Leaving the market", "statement": "Cancelling every resting order, in whatever order the calls are made, hands every order back, empties the book and returns exactly the reserved margin to the wallet; all orders of cancelling that return lead to the same state. Cancelling from the end of the book returns exactly when the reserved margin is what the orders need; otherwise every cancellation panics. A market order that closes the position is filled exactly when its size is allowed, a quote exists and the margin to release is positive (in debug builds: all that was posted), whatever the funds. Cancelling from the end and then closing leaves no order and no position and realises the open profit, fees aside, and market updates no longer change the account. Not guaranteed, and refuted: cancelling from the start of the book, closing before cancelling, and that no margin stays behind in release builds.", "quantifier": "all valid configurations, reachable states, permutations of the resting orders and sequences of updates", "why_tests_cant": "Tests cancel one or two orders in one fixed order and never compare the states different orders lead to; whether a whole book can be cancelled without a panic depends on how it was built.", "anchors": ["src/exchange.rs:484-549", "src/exchange.rs:237-277", "src/risk_engine/isolated_margin.rs:77-155", "src/position.rs:85-310"]}
{"id": "C83", "title": "Nothing can be won while the market stands still", "statement": "An account without a position that trades whole contracts between two market updates never ends with more than it had, not even before fees or counting the profit of an open position; with a zero spread it keeps exactly what it had before fees; positions are entered at the quote. With fractions of contracts this is false: truncation of the average entry price makes money at an unchanged quote, without limit. The fees of an order in pieces are at most those of the whole order, and at most two units of the last decimal place lower per further piece; an order is free exactly when its value times the rate is below one unit.", "quantifier": "all valid configurations, reachable flat states and sequences of market orders, limit orders, cancellations and amendments; all prices, rates and lists of quantities; any number of rounds", "why_tests_cant": "Tests trade a few round quantities once; the profit of one round is a unit of the last decimal place and only shows for particular quantities, prices and sequences.", "anchors": ["src/position.rs:85-260", "src/position_inner.rs:74-215", "src/types/smol_currency/quote_currency.rs:60-85", "src/exchange.rs:237-330"]}
{"id": "C84", "title": "What the example program does", "statement": "The set-up of examples/basic.rs succeeds and is a valid configuration. Every run is a history of calls of a new exchange; a run to the end quotes every price once and sends one order for every hundredth price. An order is worth at most a tenth of the wallet and is refused unless its size happens to be a whole number of contracts; while no price is a whole number the program never trades. At prices up to 9999.9 a run ends after the last price, with the liquidation, when a tenth of the wallet buys nothing, or with the assertion of a position that is turned around (in debug builds also of one that is closed). That the program survives any such prices is false, and so is that a debug build survives a liquidation; at a price of 10000.0 the program ends in a crash on either side.", "quantifier": "all lists of prices, all sequences of coins, both builds, both ways of handling inexact scaled values", "why_tests_cant": "The example needs a data file and random numbers; a run shows one sequence of orders, and refused orders are only logged.", "anchors": ["examples/basic.rs:13-93", "src/exchange.rs:140-330", "src/types/smol_currency/quote_currency.rs:92-100"]}
{"id": "C85", "title": "What the leverage changes", "statement": "Two accounts that differ only in leverage and are sent the same calls have the same reports, market, orders, position, total balance and fees as long as the same calls are accepted; only the split of the balance into wallet and margins differs. With more leverage every order that would have been accepted is accepted, if the reserved margins are right and the posted margin is no larger, and every update that would have liquidated the position liquidates it. Without the condition on the posted margin the former is false in release builds: closing in pieces leaves more margin behind with the higher leverage, until an order is refused that the lower leverage allows.", "quantifier": "all valid configurations, initial and maintenance margins, histories and calls", "why_tests_cant": "Tests fix one leverage; the claim relates two runs of the same calls and its exception only shows after repeated rounding.", "anchors": ["src/contract_specification.rs:60-98", "src/risk_engine.rs:60-330", "src/position_inner.rs:74-215", "src/exchange.rs:237-420"]}
{"id": "C86", "title": "Market data of which nothing comes can be left out", "statement": "Updates that are accepted and fill nothing can be left out of a history before an update that has a quote (or if they have none themselves): all other answers, the final account, orders and market, the counters and the traded volumes are the same, and a run that panics panics at the same place. The samples of the account tracker differ, and before a bare trade a quote cannot be left out. The same quote sent again is accepted and changes nothing, also after a liquidation. The same candle sent again can liquidate what it opened.", "quantifier": "all valid configurations, histories, updates left out and continuations", "why_tests_cant": "Backtests are run on thinned data to save time; that the outcome is the same is a relation between two runs of any length.", "anchors": ["src/exchange.rs:150-236", "src/exchange.rs:560-660", "src/market_state.rs:56-76", "src/account_tracker/full_track.rs:280-293"]}
{"id": "C87", "title": "What the benchmark programs do", "statement": "The benchmark of limit orders passes for up to 200 orders and ends with MaxNumberOfActiveOrders for more. The benchmark of order checks passes for any number of checks, which change nothing. The benchmark of market orders only ever buys with one exchange and passes for exactly 1111111110 orders in total; the next one is refused. The benchmarks of market data pass for any trades (in debug builds, and for candles, at multiples of the price step), however often they are repeated.", "quantifier": "all numbers of orders, checks and repetitions, all trades, both builds", "why_tests_cant": "The programs run a few fixed sizes; the number of iterations is chosen by the benchmark harness.", "anchors": ["benches/submit_limit_order.rs:9-61", "benches/check_active_orders.rs:9-65", "benches/submit_market_order.rs:9-75", "benches/market_update_trade.rs:9-87", "benches/smart_candle.rs:8-61"]}
{"id": "C88", "title": "Several limit orders one after the other", "statement": "Limit orders sent one after the other are all accepted exactly if each is fine in itself, there are places for all of them and the wallet together with the reserved margin covers the margin of the whole book. Only the reservation changes. If nothing is tied or rounded, the order in which they are sent does not matter, any part of them is accepted as well, and cancelling them in any order restores the accounts.", "quantifier": "all valid configurations, reachable states whose reserved margin is the computed one, and lists of orders", "why_tests_cant": "Tests send one or two orders; the claim is about every list and every permutation of it.", "anchors": ["src/exchange.rs:317-373", "src/exchange.rs:426-483", "src/risk_engine/isolated_margin.rs:65-87", "src/order_margin.rs"]}
{"id": "C89", "title": "Looser limits", "statement": "If no order of a history was refused by a filter or by the number of open orders, the same calls give the same answers and the same state with a larger number of open orders and filters that allow more. Limits allow more if bounds are dropped or moved outwards, multiples are dropped and steps are refined. After a refusal looser limits can refuse more.", "quantifier": "all valid configurations, all looser limits, all histories, both builds", "why_tests_cant": "It compares two configurations over whole histories; tests use one configuration each.", "anchors": ["src/config.rs:13-81", "src/order_filters/quantity_filter.rs", "src/order_filters/price_filter.rs", "src/exchange.rs:317-373", "src/active_limit_orders.rs"]}
{"id": "C90", "title": "A market order in parts", "statement": "Giving a market order of q contracts at once or as several market orders that add up to q, at the same quote, leaves the same position; the entry price after the parts is never higher, the fees charged never more, and the realised profit and the fees differ by no more than one and two units of the last decimal place per additional part. Parts that add to the position lock no more margin, and are accepted if the whole is, unless the filter refuses one or its margin rounds to zero.", "quantifier": "all configurations with a fee rate between zero and one, all reachable states without a rebate outstanding, all lists of positive quantities", "why_tests_cant": "tests submit single orders; no test compares two ways of giving the same order, and the differences are in the last decimal place", "anchors": ["src/risk_engine/isolated_margin.rs:118-213", "src/position_inner.rs:112-230", "src/position.rs:1-330", "src/exchange.rs:200-330"]}
{"id": "C91", "title": "A limit order in parts", "statement": "Giving a limit order of q contracts at once or as several orders at the same price that add up to q: the parts need no more margin than the whole, and at most one unit of the last decimal place less per additional part; if the whole is accepted so are the parts, provided each passes the quantity filter and there are places for all of them. The same trades fill the parts no less than the whole; each part gets the whole crossing quantity, up to its own.", "quantifier": "all valid configurations, all reachable states whose order margin is up to date, all positive quantities, all lists of trades that are accepted", "why_tests_cant": "tests submit single orders; no test compares two ways of giving the same order", "anchors": ["src/exchange.rs:317-374", "src/exchange.rs:566-690", "src/order_margin.rs:79-190", "src/risk_engine/isolated_margin.rs:65-117"]}
{"id": "C92", "title": "A limit order that is never filled", "statement": "A resting limit order that no market data reaches changes no quantity: comparing the same calls with it and without it (ids that come later shifted by one), if the same calls are accepted, position and all other orders are the same. If market data never fills more than one order at a time, money, fees, entry price and margin of the position are the same too.", "quantifier": "all valid configurations, all reachable states, all further calls that name orders by id and not this one", "why_tests_cant": "a test would have to run every history twice; the differences that exist come from the order in which the book is stored", "anchors": ["src/exchange.rs:317-374", "src/exchange.rs:566-690", "src/active_limit_orders.rs:80-150"]}
{"id": "C93", "title": "Cancelling an order makes room", "statement": "Whatever order is accepted is also accepted if a resting order is cancelled first, with the same receipt, and the wallet is then no smaller. For market orders this holds always; for limit orders if there is no position, or no two resting orders share a price, or no value is rounded.", "quantifier": "all valid configurations, all reachable states, all cancels that are accepted and all orders that are accepted", "why_tests_cant": "cancelling reorders the book, and the margin depends on that order when prices are equal, so a test with one book says little about another", "anchors": ["src/exchange.rs:484-549", "src/risk_engine/isolated_margin.rs:39-218", "src/order_margin.rs:41-185"]}
{"id": "C94", "title": "A better price", "statement": "A market order executed at a better price never leaves the account worth less, at any later price: this holds if the order opens a position or closes no more than there is (with any fee or rebate up to the whole value), and for every order where the better price is the one with the smaller value (buying linear, selling inverse contracts, fee not negative). In the latter case an order accepted at the worse price is not refused at the better one.", "quantifier": "all valid configurations, all pairs of reachable states that differ in the quote, all quantities, all prices the position is valued at afterwards", "why_tests_cant": "the exceptions come from rounding single units and need chosen quantities and prices", "anchors": ["src/exchange.rs:237-312", "src/position.rs:85-260", "src/position_inner.rs:120-228", "src/risk_engine/isolated_margin.rs:122-218"]}
{"id": "C95", "title": "A limit price that is harder to get", "statement": "Of two accounts with one resting order each, for the same side and quantity and the second at a price at least as good, no market update fills more of the second than of the first. When the same quantity of both is filled, and this opens a position or closes no more than there is, the second account is worth at least as much as the first, at any later price.", "quantifier": "all valid configurations, all pairs of reachable states with one resting order each, all updates whose traded quantities are not negative, all prices the position is valued at afterwards", "why_tests_cant": "it compares two executions, over every update and every pair of prices", "anchors": ["src/exchange.rs:175-209", "src/exchange.rs:566-691", "src/market_update/trade_update.rs:48-74", "src/market_update/candle_update.rs:49-85", "src/market_update/smart_candle.rs:141-176", "src/types/limit_order.rs:194-264", "src/position.rs:85-260"]}
{"id": "C96", "title": "The same news told by different kinds of market updates", "statement": "What a market update does to an account depends only on its quote, its time and the quantity it fills of each resting order. A smart candle with one trade does exactly what its quote followed by the trade does; a candle, with resting orders on one side only, does what its quote followed by one large enough trade at its low or high does; and a candle does what a smart candle of trades within it that fill every order within it does.", "quantifier": "all valid configurations, all reachable states, all updates with the stated relation", "why_tests_cant": "it compares executions over all pairs of updates and all books", "anchors": ["src/exchange.rs:175-209", "src/exchange.rs:566-691", "src/market_update/bba_update.rs:48-82", "src/market_update/trade_update.rs:48-90", "src/market_update/candle_update.rs:48-105", "src/market_update/smart_candle.rs:40-200"]}
{"id": "C97", "title": "What is printed", "statement": "Two market updates, market states, positions, balances, order states or price filters have the same printed text exactly if they agree in what the text is about: all of a market state, of the balances and of a price filter; the prices (and quantity and side) of an update, whose kind can also be told from the text; direction, quantity and entry price of a position; id, times and fills of an order state.", "quantifier": "all values; every way of printing decimals that is injective and prints no blank, comma or closing parenthesis", "why_tests_cant": "a text that is ambiguous for some pair of values is not found by printing examples", "anchors": ["src/market_update/bba_update.rs:37-44", "src/market_update/trade_update.rs:29-41", "src/market_update/candle_update.rs:31-42", "src/market_update/smart_candle.rs:120-134", "src/market_state.rs:35-43", "src/position.rs:263-280", "src/position_inner.rs:37-49", "src/types/mod.rs:49-61", "src/types/order_meta.rs:28-36", "src/types/order_status.rs:43-155", "src/order_filters/price_filter.rs:55-78"]}
{"id": "C98", "title": "What an account remembers", "statement": "Two accounts that now agree in position, resting orders, balances, quote, time and next order id answer every further sequence of calls alike, whatever their pasts and starting balances; the fees paid so far stay their only difference. An account without position and orders remembers nothing but its wallet balance.", "quantifier": "all valid configurations, starting balances, pairs of reachable accounts and sequences of calls", "why_tests_cant": "it compares all pairs of pasts and all futures", "anchors": ["src/exchange.rs:64-107", "src/position.rs:170-245", "src/exchange.rs:694-710"]}
{"id": "C99", "title": "Order ids carry no meaning, and a flat account is as good as new", "statement": "If two accounts agree up to fees paid and the order ids of one are all larger by n, calls that name ids larger by n get the same answers with ids larger by n, panics included. An account without position and orders goes on exactly like a new exchange that starts with its wallet balance and is told the current quote.", "quantifier": "all valid configurations, reachable accounts, offsets and sequences of calls", "why_tests_cant": "it compares all pairs of pasts and all futures", "anchors": ["src/exchange.rs:64-107", "src/exchange.rs:237-277", "src/exchange.rs:317-426", "src/position.rs:170-245"]}
{"id": "C100", "title": "Error texts", "statement": "Two errors of the crate have the same text exactly if they are the same error, and the text for an order rejected because it would have been executed at once tells its price and the quote. The text of an executed market order tells all of it.", "quantifier": "all errors, prices and orders; every way of printing decimals and user order ids that is injective and prints no blank, comma or closing parenthesis", "why_tests_cant": "a pair of values with the same text is not found by printing examples", "anchors": ["src/types/errors/main.rs:7-49", "src/types/errors/order.rs:4-40", "src/types/errors/risk.rs:4-10", "src/types/errors/config.rs:4-31", "src/types/errors/filter.rs:4-16", "src/exchange.rs:355-366", "src/types/market_order.rs:42-58"]}
{"id": "C101", "title": "The same market data twice", "statement": "A candle that is delivered a second time is accepted, reports nothing and changes nothing but the number of updates.", "quantifier": "all valid configurations, reachable states, candles", "why_tests_cant": "it speaks about all books and positions", "anchors": ["src/exchange.rs:175-211", "src/exchange.rs:566-690", "src/market_update/candle_update.rs:52-71"]}
{"id": "C102", "title": "Amending an order to what it already is", "statement": "Amending a resting order to its own side, price and total quantity is accepted and changes nothing but the id, the user id, the time and the record of fills of the order.", "quantifier": "all valid configurations, reachable states, resting orders", "why_tests_cant": "it speaks about all books, positions and partial fills", "anchors": ["src/exchange.rs:382-424", "src/exchange.rs:317-374", "src/exchange.rs:484-552"]}
{"id": "C103", "title": "Market data that goes further fills more", "statement": "Of two updates of the same state, the one with a larger trade, a price further away, more trades or a wider candle fills at least as much of every resting order.", "quantifier": "all valid configurations, reachable states, pairs of updates of which one goes further than the other", "why_tests_cant": "it compares all pairs of updates on all books", "anchors": ["src/exchange.rs:566-690", "src/market_update/trade_update.rs:51-73", "src/market_update/candle_update.rs:52-71", "src/market_update/smart_candle.rs:145-177"]}
{"id": "C104", "title": "Cancelling before or after a market order", "statement": "Cancelling a resting order before or after a market order gives the same answers and the same account.", "quantifier": "all valid configurations, reachable states, resting orders, market orders", "why_tests_cant": "it speaks about all books, positions and orders", "anchors": ["src/exchange.rs:237-277", "src/exchange.rs:279-303", "src/exchange.rs:484-552"]}
{"id": "C105", "title": "Cancelling before or after market data", "statement": "Market data that fills no order can be exchanged with the cancelling of an order: the answers and the outcome are the same.", "quantifier": "all valid configurations, reachable states, updates, resting orders", "why_tests_cant": "it speaks about all books, positions and updates", "anchors": ["src/exchange.rs:175-211", "src/exchange.rs:484-552", "src/exchange.rs:566-690"]}
{"id": "C106", "title": "A limit order before or after a market order", "statement": "A limit order and a market order that are both accepted can be sent in either order with the same outcome but for the order ids.", "quantifier": "all valid configurations, reachable states, pairs of a limit order and a market order", "why_tests_cant": "it speaks about all books, positions and orders", "anchors": ["src/exchange.rs:237-303", "src/exchange.rs:317-374", "src/exchange.rs:426-480"]}
{"id": "C107", "title": "The same amendment twice", "statement": "Repeating an amendment on the order it produced leaves the quantity of the order as it is.", "quantifier": "all configurations, reachable states, resting orders and amendments", "why_tests_cant": "it speaks about all books and partial fills", "anchors": ["src/exchange.rs:382-424", "src/types/limit_order.rs:278-291"]}
