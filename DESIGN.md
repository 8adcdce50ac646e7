# Formal model of surge-trade/perp-scrypto in Rocq (Coq 8.16.1)

## What is modelled

`rocq/theories` holds a function-by-function, executable (computable Gallina) model of the
state-changing code, each definition citing the file and lines it models.

| file | models |
|---|---|
| `Base.v` | results/panics, `Decimal` (I192 attos, truncating `*` `/`, overflow = panic), checked `u64`/`i64`, wrapping casts |
| `DFloat.v` | common/src/d_float.rs |
| `Lists.v` | common/src/list.rs, hash_list.rs |
| `Types.v` | addresses, buckets, access rules and their evaluation, rounding of `take_advanced`, keeper requests (requests.rs) |
| `Config.v` | config component (validation, compression, storage), virtual_config.rs |
| `Oracle.v` | oracle component, virtual_oracle.rs |
| `Pool.v` | margin pool component, virtual_margin_pool.rs |
| `Account.v` | margin account component, vaults.rs, virtual_margin_account.rs, referral NFT data |
| `Fees.v` | fee distributor, fee delegator |
| `Referral.v` | referral generator, permission registry |
| `ExInternal.v` | exchange.rs, internal methods |
| `Exchange.v` | exchange.rs, public methods and getters; the global state `world` |
| `System.v` | method authorisation, `step`, `reachable`, histories `steps`, transactions `tx`, `tx_reachable` |
| `Wrapper.v` | token wrapper, faucet, env registry |
| `Getters.v` | the remaining getters of exchange.rs and the components |
| `Tools.v` | deployment-independent tool blueprints |

`COVERAGE.md` lists every function in /repo's Rust sources with the model definition that stands for it, or why it has none.

The caches (`VirtualMarginPool`, `VirtualMarginAccount`, `VirtualConfig`, `VirtualOracle`) are
modelled as they are in the code - separate copies that are written back by `realize` - so that
bugs in the write-back would show.

## Abstractions and simplifications (the modelling part of the trusted base)

* Addresses, pair ids, hashes, NFT ids are natural numbers; display strings (referral names, error text) are dropped.
* Outside world as parameters quantified in every theorem: `env` (decoding and BLS verification of
  price messages, keccak, divisibility of foreign resources) and `ctx` per call (which basic
  requirements the caller's proofs satisfy, whether a target account accepts a deposit, the
  engine's USD price). Nothing is assumed of them.
* SBOR encode/decode of stored requests is taken to round-trip.
* A panic anywhere aborts the call (`Err`), a failed call aborts its transaction; this is the engine's guarantee.
* `Decimal` arithmetic: exact integer result, truncation toward zero, panic outside I192. (`PreciseDecimal` is not used by the code.)
* Cost units, fees paid to the network, metadata, event encoding and component address allocation are not modelled
  (`create_account` takes the fresh address as an argument and fails if it is in use).
* Time advances by an explicit `OAdvance` step; the engine's minute/second granularity is not modelled.
* One owner rule stands for the owner role of every component (as deployed). The mint/burn rights of the
  protocol's resources are those of deploy/tools/manifests.py.
* HashMap iteration order: the model iterates in the canonical order of `gmap`; C51 proves valuations do not depend on it.
* Methods restricted to the AUTHORITY badge are reached only through the exchange (the badge sits in its vault).
* The engine returns the unspent part of a locked fee to the fee delegator's XRD vault; the model takes the full amount.
* Not modelled: deploy scripts, blueprints' metadata, `oracle` key encoding, string parsing.

## Trusted base

Coq's kernel (and `vm_compute`, used for concrete examples), the std++ and RecordUpdate libraries' definitions
(finite maps, sets, record update), and the model's faithfulness as described above. No axioms are
declared, and no theorem uses one: for every theorem named in MANIFEST.json `Print Assumptions` (run over all of them, sixty at a time as components of a tuple, by
`rocq/theories/Assumptions.v` at the end of the build) answers "Closed under the global context".

## Layout of the proofs

* *Specification vocabulary* (no proofs, observable state only): `Spec.v`, `SpecRequests.v`, `SpecOracle.v`, `SpecTrading.v`, `SpecMargin.v`,
  `SpecLiq.v`, `SpecFunding.v`, `SpecAuth.v`, `SpecReferral.v`, `SpecWrapper.v`, `SpecLists.v`. A few theorems add definitions of their own
  right above their statement (e.g. the funding formulas in `Props_Funding2.v`).
* *Infrastructure*: `Sums.v` (sums over lists and finite maps); `Trace.v`, `Frames.v`, `Frames2.v`, `Calls.v` (every account call as a list of session
  actions over the caches, with what each action leaves alone); `Shape.v` (`gstep`: one constructor per kind of call, with the
  exact new state; `step` implies `gstep`); `Trading.v` (the trading functions inverted to explicit results).
* *Invariants and inversions*: `P_*.v`. `P_Ledger`, `P_Accounts`, `P_Positions*`, `P_Requests*`, `P_Refs`, `P_Gen*`, `P_Rules`, `P_Configured`, `P_Lists` are
  invariants of `reachable`; `P_Keeper`, `P_Orders`, `P_OrderCall`, `P_Remove`, `P_Liq`, `P_Adl`, `P_Updates` describe single calls from the stored
  state before to the stored state after (through the caches and the write-back); `P_DFloat` is the 16-bit float.
* *Theorems*: `Props_*.v`; names start with the property's id. Each file has concrete witnesses (`Example`s) that meet the hypotheses, computed from
  `Scenario.v` (a deployed exchange driven through liquidity, accounts, orders, funding, referrals, liquidation, deleveraging) and `Witness.v`.
* `tools/`: `gen_properties.py` (properties.jsonl), `gen_manifest.py` (MANIFEST.json and Assumptions.v from the theorem names, `notes.json` for
  status and notes), `mutate.py` and `mutants.py` (below).

A theorem quantifies over every environment `E`, caller context `cx`, reachable world and argument unless it says otherwise. "Exactly" in a
property is proved as an equation for the whole observable state: what changes and that nothing else does.

## Wrong programs

`tools/mutants.py` holds the seeded bugs: each edits one definition of the model the way a realistic bug would change the program and names the
properties whose claim it breaks. `tools/mutate.py` applies each to a scratch copy, rebuilds everything that depends on it (replacing a proof that
no longer goes through by `Admitted` and going on, so that every later theorem is tried), and reports which claimed properties have no
failing theorem. Results are in `seeded/LOG.jsonl`; a survivor leads to a stronger theorem, recorded there under `tightened`.

## How each property is stated and proved

| id | property | method |
|---|---|---|
| C01 | The internal ledger is zero-sum | invariant of `reachable` by induction over `step`; per-method delta lemmas through the caches; corollary for `tx_reachable` |
| C02 | Tokens are conserved | per-step conservation equation for each resource over all vaults (pool, accounts, generator); by cases on the call; summed over a history from instantiation, with a non-negativity invariant of every vault |
| C03 | The recorded collateral equals the vault contents | invariant of `reachable` |
| C04 | Request status only moves forward | relation between the request lists before/after a step, lifted to `steps` (reflexive-transitive) |
| C05 | A request is executed at most once | from C04: after a success the status is final; two successes in one history are contradictory |
| C06 | The active set is exactly the live pending requests | invariant of `reachable` (needs the cache invariant of the virtual account) |
| C07 | Pending requests are bounded | from C06 and the cached counter = size of the set |
| C08 | Liquidation invalidates every earlier request | valid start is monotone and equals the length at liquidation; process_request checks it |
| C09 | Execution happens only inside the request's window | inversion of process_request; frame lemma for the expired branch |
| C10 | Orders execute strictly after the instant they were submitted | counterexample by computation for delay >= 2^63; theorem for delay < 2^63 over histories |
| C11 | Oracle prices never go back in time | induction over messages and steps |
| C12 | Only signed prices enter the oracle | history invariant with a provenance predicate |
| C13 | Only fresh positive prices are used | inversion of the virtual oracle constructor |
| C14 | Initial margin holds after taking risk | independent valuation in Spec.v; the assertion is evaluated on the state that is written back |
| C15 | Liquidation only below maintenance margin | the margins computed during liquidation equal the independent valuation on the pre-state (after pair updates) |
| C16 | Liquidation leaves a clean account | inversion plus merge lemma of the write-back |
| C17 | Open interest and cost are the sums over accounts | invariant: sums over all accounts |
| C18 | The pool's aggregate skew and profit snapshots are the per-pair sums | invariant: sum over the pair map |
| C19 | Funding accrues only with two sides and elapsed time, and pays out what it collects | inversion of the funding step; explicit rounding bounds for truncating division |
| C20 | Trading fees are bounded | clamp |
| C21 | Fees are split exactly | exact algebra over the integer attos; nonnegativity from config validity (invariant C40 for fee shares) |
| C22 | Liquidity providers cannot profit from a round trip | inequalities on truncated division; counterexample for zero supply by computation |
| C23 | Adding or removing liquidity does not dilute the other holders | cross-multiplied inequality |
| C24 | Configured limits hold after every call that could exceed them | inversion per method; write-back lemma |
| C25 | Withdrawals are covered | inversion of the claim loop |
| C26 | Orders change the position exactly as asked | inversion of order split, open and close |
| C27 | Price and slippage limits are respected | inversion |
| C28 | Auto-deleveraging is conditional and total | inversion; monotonicity of the threshold in exact integer arithmetic |
| C29 | Auto-deleveraging targets profitable positions | sign analysis; counterexample by computation |
| C30 | Debt swaps are fair to the account | inversion and rounding bounds |
| C31 | Account actions need the right level | contrapositive: relation between accounts' rules before/after and caller's satisfaction |
| C32 | Configuration and badges are under owner control | cases on calls |
| C33 | The permission registry lists exactly the accounts a rule controls | invariant of the registry function |
| C34 | Adding a rule or recovery key only widens access | structural lemma on rule evaluation; counterexample |
| C35 | The referral generator is solvent | invariant: vault >= sum of unclaimed claims, rounding direction lemmas |
| C36 | Referral codes and quotas are never exceeded | invariants on counters |
| C37 | Wrapped base tokens are fully backed | invariant over wrapper histories; drain proved for any vault |
| C38 | Flash loans are repaid in full | invariant over wrapper histories |
| C39 | Stored configuration values are the closest-below representable ones | finite check over bit lengths lifted to all integers by monotonicity |
| C40 | A validated configuration stays valid when read back | per-field lemmas; counterexample 65536 |
| C41 | Keeper rewards match the work | inversion; frame on the reward counter |
| C42 | Pending requests can always be cancelled | progress lemma for live requests; counterexample |
| C43 | One-cancels-other orders never both execute | invariant 'executed implies listed ones final' |
| C44 | Take-profit and stop-loss orders are linked correctly | inversion of the method and write-back |
| C45 | Lists and paginated getters are faithful | refinement of the key-value list to Coq lists |
| C46 | Fee oaths are bounded and temporary | inversion and invariant |
| C47 | Collecting fees pays exactly the balance | inversion with C01's write-back lemma |
| C48 | Trading moves value only by fees | rounding bounds on close/open composed with snapshot update |
| C49 | Funding is settled before the position changes | inversion of settle_funding |
| C50 | Calls on one account do not touch the others | frame lemma per call |
| C51 | Valuation does not depend on iteration order | permutation invariance of the folds |
| C52 | Account details report the true state | inversion of the getter against the state |
| C53 | Price limits of collateral feeds gate every keeper action | contrapositive of C13 |
| C54 | Relative request references resolve to the intended request | arithmetic; unreachable index lemma |
| C55 | Time and pool data are monotone | history induction |
| C56 | Faucet and environment registry behave as maps | map lemmas over histories |
| C57 | Pool, pair, referral and request reports are true, and the quoted LP price is the one charged | inversion of the getters; exact minted/paid amounts as functions of the reported price |
| C58 | Every effect needs the role that grants it | one theorem per effect: `gstep` cases leave the effect alone or demand the role; roles read from the deployed rules |
| C59 | Deposits are credited in full and touch nothing else | exact session effect of the deposit loop, then the write-back |
| C60 | The newest signed price takes effect; replays, old prices and bad messages do not | fold over the message; frame over histories for replays |
| C61 | Submitting, cancelling and executing change exactly the named requests | exact request-list effect of each session action, write-back of the cache |
| C62 | Referral administration has exactly the stated effect | inversion of generator and NFT updates; batch sums; rounding of the vault |
| C63 | The events of a call are enough to follow the exchange | `SpecEvents.v`: an observer's view and how it reads one event; per call, the cached updates written back are the ones reported (`told`), then induction over histories |
| C64 | A call reads no account but the one it names | two runs from states differing only in other accounts, compared step by step (`P_Indep.agree`) through every method body; commutation from it and C50 |
| C65 | A call is refused only for a stated reason | an error logic `fails P m` (every error of `m` satisfies `P`, P_Refuse*.v) carried through every method body and helper; conditions in SpecRefuse.v, SpecRefuse2.v and SpecRefuse3.v speak of the state, caller and message only; every one of the 47 operations has its theorem; the `_oath` theorems cover user calls with any fee oath, by the margin condition `cannot_afford`; `C65_order_refused_for_margin` reads the margin condition of orders off the position the order asks for (for a pair brought up to date at this instant; the part of `open_position` before its last check is split off as `open_pre`); liquidation stated as an equivalence at the state left by `update_pairs` |
| C66 | The stored price is the newest one delivered | per call, which message it delivers (`delivered`); folding deliveries keeps the maximum time; two orders of the same deliveries end with the same price |
| C67 | An account without positions and without debt can always withdraw what it holds | per helper, a "cannot fail" lemma from magnitudes; the checks of the withdrawal discharged one by one from the hypotheses |
| C68 | Depositing never hurts the account | sums over maps compared entry by entry (absent = 0); discount at least 0.8 and margin at most 0.1 by the validated configuration (C40) |
| C69 | Nobody acts for you | a request absent before a call and present after it is one the call asks for (C61, C44 and the push frame); induction over the history with immutability of terms (C04); positions, withdrawals and the base balance by the frames of each call |
| C70 | Every stored request is well formed | the checks of the three submission methods (`remove_checked`, `order_checked`, `tpsl_checked`), combined with C69's `request_appears` and C04 (terms never change) and with `has_cfg_step` (configurations never disappear), as an invariant of reachable states; `C65_process_configured` drops the missing-configuration reason from C65 |
| C71 | Getting out is not stopped by the account's or the pool's state | corollaries of C65's reasons for processing: fees of the two parts bounded by the highest fee on the whole, skew change computed from the pair's imbalance |
| C72 | Trading back and forth at one price makes no money | C48 (trader pays the fee, fees move value) per order, fee and shares of it non-negative (C20, C21), others untouched (C26, C50, funding indexes unchanged), pair stays updated and marked at the price; induction over the sequence; over several pairs: an order leaves the other pairs' records (C19) and positions (C26) as they are (`Props_OnePrice2.v`) |
| C73 | The balance sheet balances | prices: C17 and C18 with the rounding of a sum against the sum of roundings, sums exchanged over pairs and accounts (`Props_Sheet.v`); ledger: C01; funding: C19 for every call (income against what holders are charged), which positions a call changes and that they owe nothing afterwards (C16, C26, C49), then induction over the history with the rounding added up (`Props_Sheet2.v`) |

Partial results and remarks on each claim are in the notes of MANIFEST.json.
