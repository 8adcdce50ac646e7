{
 "C10": {
  "note": "Proved for delay_seconds < 2^63; the wrap-around beyond it is proved to break the titled claim (counterexample history)."
 },
 "C22": {
  "note": "Proved whenever LP tokens were outstanding before; refuted by a reachable history when the supply is zero and the pool has value."
 },
 "C29": {
  "note": "Proved for long positions; refuted for shorts by a reachable state (a defect of the code)."
 },
 "C34": {
  "note": "Proved unless the old rule was allow-all; refuted for allow-all by a reachable history (a defect of the code)."
 },
 "C37": {
  "note": "C37_backing_exact accounts for every history exactly; C37_backed_base_only is the titled claim for honest unwraps; C37_refuted, C37_any_burnable_token_drains and C37_flash_oath_drains show the defect of the code."
 },
 "C38": {
  "note": "C38_loans_accounted accounts for every history exactly; C38_refuted shows the defect of the code (unwrap burns the oath)."
 },
 "C39": {
  "note": "Every part of the statement is proved; full monotonicity is refuted (C39_monotone_refuted) and replaced by monotonicity up to the float's precision; every setter call is proved to store the read-back of exactly what was given, and nothing else changes the configuration."
 },
 "C40": {
  "note": "Proved for every reachable state as an exact characterisation: what is read back is the recorded rounding of a validated configuration, and it passes validation if and only if no duration wrapped to 0 and the rounded margins kept their order (C40_pair_config_in_every_state, C40_collateral_config_in_every_state). The unconditional reading is false of the code: C40_durations_wrap_refuted, C40_margins_swap_refuted."
 },
 "C42": {
  "note": "Proved for every set of live pending requests; refuted for requests invalidated by a liquidation (C42_invalidated_refuted)."
 }
}