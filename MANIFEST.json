{
 "claims": [
  {
   "property": "C01",
   "status": "proved",
   "theorems": [
    "C01_tally_is_sum_of_votes_mod",
    "C01_tally_is_sum_of_votes",
    "C01_one_vote_per_voter",
    "C01_exact_tally_unbounded_refuted"
   ],
   "note": "Exact under a 128-bit bound on the recorded votes, modulo 2^128 always; the unbounded exact claim is refuted by a history."
  },
  {
   "property": "C02",
   "status": "proved",
   "theorems": [
    "C02_revote_replaces"
   ],
   "note": ""
  },
  {
   "property": "C03",
   "status": "proved",
   "theorems": [
    "C03_votes_frozen",
    "C03_vote_rejected_outside_window",
    "C03_vote_accepted_inside_window"
   ],
   "note": ""
  },
  {
   "property": "C04",
   "status": "proved",
   "theorems": [
    "C04_verdict_is_the_rule",
    "C04_rule_is_functional",
    "C04_turnout_fits_when_not_above_available",
    "C04_turnout_overflow_counts_as_zero",
    "C04_threshold_of_available_votes_refuted"
   ],
   "note": "Needs the total of the votes and the turnout ratio to fit 128 bits (the latter always holds when votes cast do not exceed votes available). The reading of the API comment (share of AVAILABLE votes) is refuted."
  },
  {
   "property": "C05",
   "status": "proved",
   "theorems": [
    "C05_ended_stays_ended",
    "C05_strict_end_of_ended_poll_errors",
    "C05_end_ends"
   ],
   "note": ""
  },
  {
   "property": "C06",
   "status": "proved",
   "theorems": [
    "C06_fresh_id",
    "C06_terms_never_change"
   ],
   "note": ""
  },
  {
   "property": "C07",
   "status": "proved",
   "theorems": [
    "C07_admin_only",
    "C07_admin_constant"
   ],
   "note": ""
  },
  {
   "property": "C08",
   "status": "proved",
   "theorems": [
    "C08_early_end_needs_decision",
    "C08_early_verdict_is_final_refuted"
   ],
   "note": "Necessary conditions proved; finality of the early verdict refuted by a history."
  },
  {
   "property": "C09",
   "status": "proved",
   "theorems": [
    "C09_simulation_is_exact"
   ],
   "note": ""
  },
  {
   "property": "C10",
   "status": "proved",
   "theorems": [
    "C10_weight_update"
   ],
   "note": "Includes that the update always succeeds when block time does not decrease."
  },
  {
   "property": "C11",
   "status": "proved",
   "theorems": [
    "C11_never_over_promised",
    "C11_rewards_readable"
   ],
   "note": "Over all histories of the distributor contract."
  },
  {
   "property": "C12",
   "status": "proved",
   "theorems": [
    "C12_proportional",
    "C12_other_assets_unchanged"
   ],
   "note": ""
  },
  {
   "property": "C13",
   "status": "proved",
   "theorems": [
    "C13_weight_change_keeps_rewards",
    "C13_newcomer_starts_at_zero"
   ],
   "note": ""
  },
  {
   "property": "C14",
   "status": "proved",
   "theorems": [
    "C14_claim_pays_the_query",
    "C14_second_claim_pays_nothing",
    "C14_claim_succeeds"
   ],
   "note": ""
  },
  {
   "property": "C15",
   "status": "proved",
   "theorems": [
    "C15_claim_needs_the_user",
    "C15_payments_only_to_claimants"
   ],
   "note": ""
  },
  {
   "property": "C16",
   "status": "proved",
   "theorems": [
    "C16_effective_weight",
    "C16_total",
    "C16_minimum_change_keeps_rewards"
   ],
   "note": ""
  },
  {
   "property": "C17",
   "status": "proved",
   "theorems": [
    "C17_admin_controls_weights",
    "C17_initial_weights_unique"
   ],
   "note": ""
  },
  {
   "property": "C18",
   "status": "proved",
   "theorems": [
    "C18_only_whitelisted",
    "C18_refused_iff_not_whitelisted",
    "C18_only_treasury_listed",
    "C18_refused_iff_not_treasury_listed"
   ],
   "note": "For any whitelist answered in pages, and for the treasury's own query."
  },
  {
   "property": "C19",
   "status": "proved",
   "theorems": [
    "C19_total_is_sum",
    "C19_weight_query"
   ],
   "note": ""
  },
  {
   "property": "C20",
   "status": "proved",
   "theorems": [
    "C20_past_weights_fixed",
    "C20_total_at_height",
    "C20_total_at_time"
   ],
   "note": ""
  },
  {
   "property": "C21",
   "status": "proved",
   "theorems": [
    "C21_custody"
   ],
   "note": ""
  },
  {
   "property": "C22",
   "status": "proved",
   "theorems": [
    "C22_claim_pays_due",
    "C22_claim_succeeds",
    "C22_nft_claim_returns_due"
   ],
   "note": ""
  },
  {
   "property": "C23",
   "status": "proved",
   "theorems": [
    "C23_unstake_exact",
    "C23_unstake_succeeds",
    "C23_unstake_nfts",
    "C23_release_wraps_refuted"
   ],
   "note": "Exact in every case, with the 64-bit wrap-around of the release point; that it can make a claim due at once is shown by a history (release_wraps)."
  },
  {
   "property": "C24",
   "status": "proved",
   "theorems": [
    "C24_nft_one_place",
    "C24_nft_leaves_to_owner"
   ],
   "note": ""
  },
  {
   "property": "C25",
   "status": "proved",
   "theorems": [
    "C25_reports_exact",
    "C25_removed_members_refuted"
   ],
   "note": "Exact for every message: users left out when the multisig member list is replaced are the only ones not reported; the claim without this exception is refuted by a history."
  },
  {
   "property": "C26",
   "status": "proved",
   "theorems": [
    "C26_settings_by_controller",
    "C26_stake_changes",
    "C26_claim_changes",
    "C26_nft_stake_changes"
   ],
   "note": ""
  },
  {
   "property": "C27",
   "status": "proved",
   "theorems": [
    "C27_executed_call_refused",
    "C27_record_step",
    "C27_executing_step",
    "C27_executed_once",
    "C27_record_kept",
    "C27_executed_refused",
    "C27_executed_iff_ended"
   ],
   "note": "Over all histories of a whole DAO, whatever the proposals do. C27_executed_iff_ended (the mark agrees with the poll) needs that custom messages do not call the DAO's own governance."
  },
  {
   "property": "C28",
   "status": "proved",
   "theorems": [
    "C28_actions_self_only",
    "C28_stored_actions",
    "C28_actions_message_source",
    "C28_actions_of_passed",
    "C28_self_call_refuted"
   ],
   "note": "Under the condition on custom messages named in the property; without it refuted by a history."
  },
  {
   "property": "C29",
   "status": "proved",
   "theorems": [
    "C29_resolution_messages",
    "C29_no_other_payment",
    "C29_deposits_exact",
    "C29_custom_payment_refuted"
   ],
   "note": "Under the condition on custom messages named in the property; without it refuted by a history."
  },
  {
   "property": "C30",
   "status": "proved",
   "theorems": [
    "C30_execute_exact",
    "C30_resolved_in_time"
   ],
   "note": ""
  },
  {
   "property": "C31",
   "status": "proved",
   "theorems": [
    "C31_create_with_coins",
    "C31_create_with_nfts",
    "C31_create_with_cw20",
    "C31_create_council",
    "C31_creation_reply"
   ],
   "note": ""
  },
  {
   "property": "C32",
   "status": "proved",
   "theorems": [
    "C32_vote_exact",
    "C32_council_vote_exact"
   ],
   "note": ""
  },
  {
   "property": "C33",
   "status": "proved",
   "theorems": [
    "C33_config_always_sane",
    "C33_insane_update_rejected"
   ],
   "note": ""
  },
  {
   "property": "C34",
   "status": "proved",
   "theorems": [
    "C34_unlocking_checked",
    "C34_vote_outlasts_unlocking_refuted",
    "C34_block_period_refuted",
    "C34_withdrawn_before_end_refuted",
    "C34_withdrawn_though_checked_refuted"
   ],
   "note": "The property is false of the code: refuted by witnesses for single calls and for whole-DAO histories, even if every change of the vote duration is checked against a new unlocking period. What the code does check is proved."
  },
  {
   "property": "C35",
   "status": "proved",
   "theorems": [
    "C35_council_powers_bounded",
    "C35_council_effects"
   ],
   "note": ""
  },
  {
   "property": "C36",
   "status": "proved",
   "theorems": [
    "C36_actions_isolated",
    "C36_resolution"
   ],
   "note": "An equation for the delivery of the actions, and the exact course of every successful execution. Running out of gas fails the whole call."
  },
  {
   "property": "C37",
   "status": "proved",
   "theorems": [
    "C37_council_vote_refuted",
    "C37_one_member_decides_refuted"
   ],
   "note": "The property is false of the code: refuted by a history in which one of three council members decides a council proposal alone by changing their stake."
  },
  {
   "property": "C38",
   "status": "proved",
   "theorems": [
    "C38_votes_are_weights",
    "C38_votes_below_total",
    "C38_custom_votes_refuted"
   ],
   "note": "Under the condition on custom messages named in the property; without it refuted by a history."
  },
  {
   "property": "C39",
   "status": "proved",
   "theorems": [
    "C39_contracts_resolve",
    "C39_unresolvable",
    "C39_stuck_deposit_refuted",
    "C39_proposal_has_poll",
    "C39_resolvable_exact",
    "C39_resolvable_with_weight",
    "C39_stuck_forever",
    "C39_deposit_stuck_refuted"
   ],
   "note": "Decided for whole-DAO histories: after the end of the vote a request succeeds exactly if somebody had weight at the end and the verdict can be carried out (C39_resolvable_exact). The unrestricted property is false: if nobody had weight, the proposal and its deposit are stuck in every later history (C39_stuck_forever, C39_deposit_stuck_refuted)."
  },
  {
   "property": "C40",
   "status": "proved",
   "theorems": [
    "C40_status_recorded",
    "C40_passed_executes",
    "C40_early_executes",
    "C40_executed_status",
    "C40_draw_refuted"
   ],
   "note": "Proved for the verdicts shown; refuted for the status in-progress, which also covers executable draws."
  },
  {
   "property": "C41",
   "status": "proved",
   "theorems": [
    "C41_signed_by_own_call",
    "C41_restricted_exactly",
    "C41_no_governance",
    "C41_no_rewards",
    "C41_no_stake",
    "C41_leaving_free"
   ],
   "note": "The addresses a multisig membership contract lists are set by the DAO and not subject to the attestation; restriction is enforced when they act."
  },
  {
   "property": "C42",
   "status": "proved",
   "theorems": [
    "C42_others_only_migrate",
    "C42_spend_exact",
    "C42_distribute_exact",
    "C42_execute_exact",
    "C42_set_admin_exact",
    "C42_strangers",
    "C42_new_treasury_silent",
    "C42_new_treasury_no_migration"
   ],
   "note": ""
  },
  {
   "property": "C43",
   "status": "proved",
   "theorems": [
    "C43_asset_pages",
    "C43_nft_pages",
    "C43_lists_from_start",
    "C43_lists_kept",
    "C43_update_assets",
    "C43_update_assets_accepted",
    "C43_update_nfts"
   ],
   "note": ""
  },
  {
   "property": "C44",
   "status": "proved",
   "theorems": [
    "C44_token_step",
    "C44_token_history",
    "C44_token_completes",
    "C44_nft_step",
    "C44_nft_history",
    "C44_nft_completes",
    "C44_multisig_step",
    "C44_step_messages",
    "C44_completed_means_done",
    "C44_completed_stays",
    "C44_stakes_taken_in",
    "C44_restricted_member_blocks",
    "C44_foreign_claim_blocks",
    "C44_foreign_claim_blocks_refuted",
    "C44_foreign_claim_lost_refuted"
   ],
   "note": "For NFT DAOs with fewer than 2^32 NFTs. Refuted for claims tables that mix token and NFT claims; a restricted staker blocks the batch."
  },
  {
   "property": "C45",
   "status": "proved",
   "theorems": [
    "C45_upgrade_exact",
    "C45_any_registry",
    "C45_version_step",
    "C45_version_never_falls",
    "C45_target_exists_refuted",
    "C45_missing_target_blocks_attestation"
   ],
   "note": "Proved; that the target version exists is false of the code (refuted by a witness)."
  },
  {
   "property": "C46",
   "status": "proved",
   "theorems": [
    "C46_admin_only",
    "C46_strangers",
    "C46_add",
    "C46_edit",
    "C46_update_admin",
    "C46_append_only",
    "C46_origin",
    "C46_keys",
    "C46_order",
    "C46_order_injective",
    "C46_latest",
    "C46_latest_none",
    "C46_pages"
   ],
   "note": ""
  },
  {
   "property": "C47",
   "status": "proved",
   "theorems": [
    "C47_finalize_exact",
    "C47_new_dao",
    "C47_before_wiring",
    "C47_wired_once",
    "C47_after_wiring",
    "C47_wiring_kept",
    "C47_wiring_reported",
    "C47_info_reported",
    "C47_management_controller_only",
    "C47_update_metadata",
    "C47_update_config",
    "C47_execute_msgs",
    "C47_set_attestation",
    "C47_attestation_reply",
    "C47_remove_attestation"
   ],
   "note": ""
  },
  {
   "property": "C48",
   "status": "proved",
   "theorems": [
    "C48_first_weights",
    "C48_council_leak_refuted",
    "C48_multisig_members",
    "C48_cw3_imported"
   ],
   "note": "True of multisig DAOs (proved); false of staking DAOs with a council (refuted by a witness in which a councillor without stake takes rewards)."
  },
  {
   "property": "C49",
   "status": "proved",
   "theorems": [
    "C49_creation_exact",
    "C49_creation_accepted",
    "C49_migration_admin",
    "C49_bound_together",
    "C49_obey_controller",
    "C49_hooks",
    "C49_root_wired",
    "C49_register_exact",
    "C49_register_pages",
    "C49_update_config_exact",
    "C49_config_admin",
    "C49_finalize_internal",
    "C49_global_lists_fixed",
    "C49_code_ids"
   ],
   "note": ""
  },
  {
   "property": "C50",
   "status": "proved",
   "theorems": [
    "C50_deploy_exact",
    "C50_report_exact",
    "C50_remote_order_exact",
    "C50_records_kept",
    "C50_records_origin",
    "C50_pending_ordered",
    "C50_report_once",
    "C50_second_report_refused",
    "C50_treasury_pages",
    "C50_deployments_reported"
   ],
   "note": "A report is taken at most once as long as fewer than 2^32 calls were made (u32 ids wrap). The sender address derivation (sha256, bech32) is an abstract function."
  },
  {
   "property": "C51",
   "status": "proved",
   "theorems": [
    "C51_callback_exact",
    "C51_tokens_staked"
   ],
   "note": ""
  },
  {
   "property": "C52",
   "status": "proved",
   "theorems": [
    "C52_vote_delay_exact",
    "C52_weight_shift_refuted"
   ],
   "note": "The property is false of the code: refuted by a history; what a vote does to the delay is proved exactly."
  },
  {
   "property": "C53",
   "status": "proved",
   "theorems": [
    "C53_weight_updates_never_blocked"
   ],
   "note": ""
  },
  {
   "property": "C54",
   "status": "proved",
   "theorems": [
    "C54_any_amount_distributable_refuted",
    "C54_distribution_limit"
   ],
   "note": "The property is false of the code: refuted by a witness; the exact limit is proved."
  },
  {
   "property": "C55",
   "status": "proved",
   "theorems": [
    "C55_poll_listing"
   ],
   "note": ""
  },
  {
   "property": "C56",
   "status": "proved",
   "theorems": [
    "C56_verdict_final_refuted"
   ],
   "note": "The property is false of the code: refuted by a witness history. The controller resolves each proposal once (C27)."
  },
  {
   "property": "C57",
   "status": "proved",
   "theorems": [
    "C57_nft_weight_is_count"
   ],
   "note": ""
  },
  {
   "property": "C58",
   "status": "proved",
   "theorems": [
    "C58_action_effect"
   ],
   "note": ""
  },
  {
   "property": "C59",
   "status": "proved",
   "theorems": [
    "C59_weights_forwarded"
   ],
   "note": ""
  },
  {
   "property": "C60",
   "status": "proved",
   "theorems": [
    "C60_initial_deployment",
    "C60_never_again"
   ],
   "note": ""
  },
  {
   "property": "C61",
   "status": "proved",
   "theorems": [
    "C61_actions_valid",
    "C61_proposed_actions_valid"
   ],
   "note": ""
  },
  {
   "property": "C62",
   "status": "proved",
   "theorems": [
    "C62_listing_exact"
   ],
   "note": ""
  },
  {
   "property": "C63",
   "status": "proved",
   "theorems": [
    "C63_old_weights_constant"
   ],
   "note": ""
  },
  {
   "property": "C64",
   "status": "proved",
   "theorems": [
    "C64_migrate_exact"
   ],
   "note": ""
  },
  {
   "property": "C65",
   "status": "proved",
   "theorems": [
    "C65_lists_requested",
    "C65_own_token_refuted"
   ],
   "note": "False of the code: refuted by a witness. Proved instead: the new treasury has exactly the requested lists."
  },
  {
   "property": "C66",
   "status": "proved",
   "theorems": [
    "C66_stakes_held"
   ],
   "note": "For every honest outside ledger (record honest_ledger, LedgerSpec.v); a concrete bank, token and NFT ledger is proved honest in LedgerExamples.v."
  },
  {
   "property": "C67",
   "status": "proved",
   "theorems": [
    "C67_nfts_held",
    "C67_nfts_unique"
   ],
   "note": "For every honest outside ledger, see C66."
  },
  {
   "property": "C68",
   "status": "proved",
   "theorems": [
    "C68_rewards_held"
   ],
   "note": "For every honest outside ledger, see C66."
  },
  {
   "property": "C69",
   "status": "proved",
   "theorems": [
    "C69_creation_gives_dao",
    "C69_created_executes_once"
   ],
   "note": "Proved for the contracts the code ids stand for (the registry is trusted to list the right codes). The payment to and first deployments of the outposts, sent last by the factory, are treated as the first transactions of the DAO's history."
  },
  {
   "property": "C70",
   "status": "proved",
   "theorems": [
    "C70_governance",
    "C70_membership",
    "C70_council",
    "C70_funds",
    "C70_treasury",
    "C70_outposts",
    "C70_controller",
    "C70_enterprise"
   ],
   "note": "One theorem per contract. Coins are ignored for contracts whose handlers ignore them."
  },
  {
   "property": "C71",
   "status": "proved",
   "theorems": [
    "C71_by_enterprise_address",
    "C71_by_treasury_address",
    "C71_no_other_address",
    "C71_old_dao_address",
    "C71_treasury_address_lost_refuted"
   ],
   "note": "The two other facade contracts' own addresses are left out. Without the condition on the treasury's admin refuted by a history."
  },
  {
   "property": "C72",
   "status": "proved",
   "theorems": [
    "C72_adapt_exact",
    "C72_backed_stays",
    "C72_wrong_unstaking_refuted"
   ],
   "note": "Proved for every type and request; that unstaking requests are checked against the DAO's type is false (refuted)."
  },
  {
   "property": "C73",
   "status": "proved",
   "theorems": [
    "C73_execute_exact",
    "C73_fees_match",
    "C73_call_sends_one",
    "C73_callback_sends",
    "C73_own_calls_unpaid_refuted",
    "C73_deployment_needs_two_refuted"
   ],
   "note": "Proved for proposals whose custom messages do not call the outposts contract; otherwise, and for the second coin of a first deployment, refuted."
  },
  {
   "property": "C74",
   "status": "proved",
   "theorems": [
    "C74_own_addresses",
    "C74_member_power",
    "C74_powers_sum",
    "C74_stakes_sum",
    "C74_proposal_is_the_stored_one",
    "C74_status_agrees",
    "C74_list_agrees",
    "C74_votes_agree",
    "C74_claims_shown",
    "C74_claims_agree",
    "C74_stage_agrees",
    "C74_unmoved_shown",
    "C74_whitelists_shown"
   ],
   "note": "Proved in every history of a DAO."
  },
  {
   "property": "C75",
   "status": "proved",
   "theorems": [
    "C75_dao_info_exact",
    "C75_council_cut_off_refuted",
    "C75_code_version_exact",
    "C75_small_codes",
    "C75_codes_collide_refuted"
   ],
   "note": "Proved exactly; that all council members are shown, and that code versions tell all versions apart, is false (refuted)."
  },
  {
   "property": "C76",
   "status": "proved",
   "theorems": [
    "C76_map_action_exact",
    "C76_translated_plain",
    "C76_old_adapt_exact",
    "C76_targets_ignored",
    "C76_users_ignored",
    "C76_funding_misdirected_refuted",
    "C76_old_info_shown",
    "C76_old_answers_passed"
   ],
   "note": "The old code is not in the repository; an old DAO is an arbitrary record of answers. Dropped targets, owners and users are stated as theorems."
  },
  {
   "property": "C77",
   "status": "proved",
   "theorems": [
    "C77_old_status_shown",
    "C77_shown_once",
    "C77_old_list_shown",
    "C77_council_misjudged_refuted"
   ],
   "note": "An old DAO is an arbitrary record of answers; votes of a proposal are assumed to be for the four outcomes and below 2^128. The reading with the council's own settings is refuted."
  },
  {
   "property": "C78",
   "status": "proved",
   "theorems": [
    "C78_members_read",
    "C78_staked_read",
    "C78_user_nfts_read",
    "C78_treasuries_read",
    "C78_daos_read",
    "C78_votes_read",
    "C78_listing_members",
    "C78_listing_staked",
    "C78_listing_user_nfts",
    "C78_listing_treasuries",
    "C78_same_ids",
    "C78_listing_proposals",
    "C78_listing_stops_early_refuted"
   ],
   "note": "Filters of proposals apply to the recorded status of the poll. That the proposals are all listed, and that every poll has a proposal, assumes that no custom message opened a poll; without that refuted by a history."
  },
  {
   "property": "C79",
   "status": "proved",
   "theorems": [
    "C79_deposits_held",
    "C79_nft_deposits_held",
    "C79_without_no_self_deposits_refuted",
    "C79_without_thrifty_refuted"
   ],
   "note": "For every honest outside ledger (records honest_to and honest_collection, LedgerSpec.v; a concrete one is proved honest in LedgerExamples.v). Without the conditions on custom messages refuted by two histories."
  },
  {
   "property": "C80",
   "status": "proved",
   "theorems": [
    "C80_rewards_follow",
    "C80_reward_effect",
    "C80_reward_total",
    "C80_created_rewards",
    "C80_unstaked_refuted",
    "C80_disturbed_refuted"
   ],
   "note": "Proved with the condition on custom messages, which is needed (refuted by a history with a set member list). That nobody without voting weight has a reward weight is false for council members of DAOs with staking (refuted)."
  },
  {
   "property": "C81",
   "status": "proved",
   "theorems": [
    "C81_unstake",
    "C81_unstake_nfts",
    "C81_created",
    "C81_rewards_fit",
    "C81_locked_refuted"
   ],
   "note": "Proved for every history and every outside that accepts calls without coins; hypotheses as in the statement. Without the condition that rewards fit refuted by a history with a lying whitelisted token."
  },
  {
   "property": "C82",
   "status": "proved",
   "theorems": [
    "C82_claim",
    "C82_nft_claim",
    "C82_reward_claim"
   ],
   "note": "For every honest outside ledger that hands out what is held (record good_ledger, ExitSpec.v; the chain of LedgerExamples.v is proved to have it)."
  },
  {
   "property": "C83",
   "status": "proved",
   "theorems": [
    "C83_treasury_exact",
    "C83_spent",
    "C83_runs_exist",
    "C83_voted",
    "C83_balance",
    "C83_created",
    "C83_handed_over_refuted",
    "C83_unvoted_refuted"
   ],
   "note": "Proved for every outside, with treasury_kept (the treasury's admin was not replaced); the second part with calm. Without these refuted by histories. The balance theorem is for every outside with keeps_for (PurseSpec.v; the chain of LedgerExamples.v is proved to have it)."
  },
  {
   "property": "C84",
   "status": "proved",
   "theorems": [
    "C84_settings_by_proposals",
    "C84_at_upgrade",
    "C84_voted",
    "C84_charge_lasts",
    "C84_treasury_charge",
    "C84_created_in_charge",
    "C84_created",
    "C84_handed_over_refuted",
    "C84_unvoted_refuted"
   ],
   "note": "Proved for every outside and every setting of RuleSpec.v, from in_charge (the contract takes the controller's orders): proved for DAOs created by the factory and kept forever, for the treasury while its admin was not replaced. The passed-proposal part needs calm. Without in_charge, or without calm, refuted by histories. An upgrade ends the histories (the code after it is unknown); its own transaction is covered."
  },
  {
   "property": "C85",
   "status": "proved",
   "theorems": [
    "C85_voting_exact",
    "C85_voting_counts",
    "C85_no_room_refuted"
   ],
   "note": "Proved for every outside where calls without coins are free (LiveSpec.free_calls), in calm histories. Four levels of gas (nesting) suffice. Without room in the clock refuted by a history near the end of 64-bit nanoseconds."
  },
  {
   "property": "C86",
   "status": "proved",
   "theorems": [
    "C86_votes_final",
    "C86_ended_by_the_rule",
    "C86_one_outcome",
    "C86_whole_weight",
    "C86_late_votes_refuted"
   ],
   "note": "Proved for every outside, in calm histories, for both membership contracts with checkpoints in order (created_by). The whole-weight part needs that no transaction before the end falls into its second; without that refuted by a history (a quorum reached by a stake half a second before the end)."
  },
  {
   "property": "C87",
   "status": "proved",
   "theorems": [
    "C87_proposing_exact",
    "C87_proposing_makes",
    "C87_vote_length",
    "C87_always_possible_refuted",
    "C87_locked_forever",
    "C87_configured_length_refuted"
   ],
   "note": "Proved for every outside that lets contracts call each other without coins (free_calls), for proposals made with coins, by sending tokens, or as a council member; deposits of NFTs are not covered by the exactness (the controller then fetches the NFTs from a contract outside), but by the lock. That it is always possible is refuted (vote duration of 2^55 s), as is the configured length (18446744074 s)."
  },
  {
   "property": "C88",
   "status": "proved",
   "theorems": [
    "C88_controller_sends",
    "C88_enterprise_sends",
    "C88_enterprise_ordered",
    "C88_code_by_proposals",
    "C88_code_voted",
    "C88_upgrades_followed",
    "C88_created_typed",
    "C88_only_by_upgrades_refuted"
   ],
   "note": "Proved for every outside. The transaction in which code changes is followed with the old code to its end; what new code does afterwards is not modelled. Migrations to this repository's own code are followed, except that of the governance contract (its migrate replaces the admin). That only upgrades change code is refuted."
  },
  {
   "property": "C89",
   "status": "proved",
   "theorems": [
    "C89_carried_out",
    "C89_each_delivered",
    "C89_exactly",
    "C89_measured",
    "C89_created",
    "C89_resolved_refuted"
   ],
   "note": "Proved for every outside. The order is that of the log (a message is noted when it is delivered, depth first); messages of errand form are covered by the order theorem and C88, not by the exact count. That every passed and resolved proposal is carried out is refuted (an action that fails undoes the others for good)."
  },
  {
   "property": "C90",
   "status": "proved",
   "theorems": [
    "C90_executable_exact",
    "C90_by_the_rule",
    "C90_early_fits",
    "C90_newcomers_refuted"
   ],
   "note": "Proved for every outside in which calls without coins cost nothing (free_calls). C90_executable_exact needs no condition on custom messages; the reading of the verdict by the voting rule (C90_by_the_rule) assumes a calm history and that the share of the votes can be computed, which for general proposals before the end always holds (C90_early_fits). That early verdicts are those of lasting members is refuted."
  },
  {
   "property": "C91",
   "status": "proved",
   "theorems": [
    "C91_passbook",
    "C91_nft_passbook"
   ],
   "note": "Proved for every outside, without conditions on messages of choice, ledgers or time. What is handed in is what was reported to or paid into the membership contract by accepted calls; that it was really there is C66."
  },
  {
   "property": "C92",
   "status": "proved",
   "theorems": [
    "C92_membership_sends",
    "C92_council_sends",
    "C92_distributor_sends",
    "C92_governance_silent"
   ],
   "note": "Proved for every outside, without further conditions. 'Claimed earlier' is a position in the list of delivered messages; the amounts are those of C22, C24 and C14."
  },
  {
   "property": "C93",
   "status": "proved",
   "theorems": [
    "C93_shared_by_votes",
    "C93_sharing_exact",
    "C93_rewards_kept"
   ],
   "note": "Whole-DAO theorems: the effect of a distribution signed by anyone outside (token contracts included) with current voting weights, the exact condition for its acceptance, and a two-point theorem that rewards move only by distributions and own claims. Distributions within a proposal's transaction are covered by the last theorem and by C12."
  },
  {
   "property": "C94",
   "status": "proved",
   "theorems": [
    "C94_own_ballots",
    "C94_support_counted",
    "C94_ballots_decide",
    "C94_forged_vote_refuted"
   ],
   "note": "Proved with the one condition that no executed proposal carries a message of choice that casts a vote at the governance contract directly (unforged); calm implies it. That the condition is needed is shown by a refutation (C94_forged_vote_refuted). The last theorem needs the last transaction before the end to come in an earlier second, as C86 does."
  },
  {
   "property": "C95",
   "status": "proved",
   "theorems": [
    "C95_addresses",
    "C95_addresses_unique",
    "C95_started",
    "C95_passed_on",
    "C95_one_question",
    "C95_one_lead",
    "C95_answered_only",
    "C95_dispatches"
   ],
   "note": "Proved for every answer of the contracts asked. C95_dispatches connects it with the whole-DAO model of C71-C78."
  },
  {
   "property": "C96",
   "status": "proved",
   "theorems": [
    "C96_join",
    "C96_join_needs"
   ],
   "note": "Proved for DAOs that started with right reward weights, with C81's conditions (nobody meddled with hooks or weights by messages of choice, rewards fit into their type) and room for the new weight next to the weights given at the start. Gas is sufficient if the depth 7 of nested calls is."
  },
  {
   "property": "C97",
   "status": "proved",
   "theorems": [
    "C97_said_abroad",
    "C97_calls_answered",
    "C97_known_abroad",
    "C97_orders_abroad",
    "C97_orders_voted",
    "C97_orders_sent"
   ],
   "note": "What the other chain does with the messages is outside the model; derived addresses are an arbitrary function. The theorems about proposals assume fewer than 2^64 delivered messages (C97_orders_voted also C28's condition on custom messages)."
  },
  {
   "property": "C98",
   "status": "proved",
   "theorems": [
    "C98_weights_public",
    "C98_weights_between",
    "C98_losses_own",
    "C98_votes_public",
    "C98_outcome_public",
    "C98_same_record"
   ],
   "note": "Weights: no condition. Votes and outcomes: as C94 (lasting, timely, no disturbing custom messages); the outcome theorem is about general votes decided at or after their end."
  },
  {
   "property": "C99",
   "status": "proved",
   "theorems": [
    "C99_majority_wins",
    "C99_majority_executes",
    "C99_winning_sharp",
    "C99_vetoes_stop",
    "C99_minority_blocks",
    "C99_silence_stops"
   ],
   "note": "Conditions as C94 and C98 (lasting, timely, no disturbing custom messages); groups are judged by their last ballots and weights when the vote ends. That somebody can vote while the poll is open is C85."
  },
  {
   "property": "C100",
   "status": "proved",
   "theorems": [
    "C100_council_actions",
    "C100_members_settings",
    "C100_treasury_by_members",
    "C100_abroad_by_members",
    "C100_council_leaves",
    "C100_council_spends_nothing"
   ],
   "note": "Conditions as in C83 (treasury_kept, for the parts about the treasury) and C84 (in_charge); lasting. That council proposals are made and voted on by council members only is part of C35 and C101."
  },
  {
   "property": "C101",
   "status": "proved",
   "theorems": [
    "C101_all_entitled",
    "C101_voters_have_weight",
    "C101_unsigned_kept_out",
    "C101_unsigned_weightless",
    "C101_dropped_text_refuted"
   ],
   "note": "Conditions: new_dao and in_place (the wiring of the other contracts at creation, C58). The text part: has_text, text_kept, never_signs; without text_kept it is refuted (C101_dropped_text_refuted)."
  },
  {
   "property": "C102",
   "status": "proved",
   "theorems": [
    "C102_rules_as_run",
    "C102_last_word",
    "C102_all_as_told"
   ],
   "note": "Rules and council are recounted from the actions of the proposals run (under lasting); everything else from the messages delivered, without conditions. The address of the text to agree to is not recounted: it is named by the contract created, not by a message."
  },
  {
   "property": "C103",
   "status": "proved",
   "theorems": [
    "C103_votes_count",
    "C103_council_vote",
    "C103_backing_counted",
    "C103_backing_decides",
    "C103_heads_counted",
    "C103_dismissed_vote_refuted"
   ],
   "note": "Conditions: new_dao, unforged (no weights or votes forged through custom messages, follows from calm), fewer than 2^64 log entries; for the verdict also calm, the clock condition seconds_before and share_fits (the shares fit into a Decimal), as in C94. This is the exact counterpart of C37_council_vote_refuted: votes in the council follow the stake in the DAO from its next change. C103_dismissed_vote_refuted: nothing is reported when the council changes, so former councillors' votes count."
  },
  {
   "property": "C104",
   "status": "proved",
   "theorems": [
    "C104_created_fit",
    "C104_decision_exact",
    "C104_decision_takes_effect",
    "C104_decision_with_coins",
    "C104_majority_decides",
    "C104_period_refuted"
   ],
   "note": "Conditions: new_dao, rules_fit (the first rules are in order for the type the enterprise contract has on record; proved to follow from the instantiation with that type), free_calls (calls without coins cost nothing but gas), lasting; the majority version has those of C99. C104_period_refuted: not so for the unstaking period."
  },
  {
   "property": "C105",
   "status": "proved",
   "theorems": [
    "C105_stays_ready",
    "C105_internal_decision",
    "C105_majority_replaces",
    "C105_hook_refuted"
   ],
   "note": "Conditions: those of C104, and council_ready (the council contract is a member list of this DAO and only the controller is told of its changes), which C105_stays_ready gives for all histories without AddHook messages for others to the council contract. C105_hook_refuted: without it the claim is false."
  },
  {
   "property": "C106",
   "status": "proved",
   "theorems": [
    "C106_yes_never_hurts",
    "C106_veto_never_helps",
    "C106_abstaining_is_nothing",
    "C106_quorum_refuted",
    "C106_dilution_refuted",
    "C106_stronger_refuted"
   ],
   "note": "Conditions: those of C99 (held: a general vote of a new DAO, decided at its end, in a lasting, calm and timely history), in both histories. Abstaining, vetoing: the first vote had a quorum. C106_quorum_refuted, C106_dilution_refuted and C106_stronger_refuted: without the conditions given the claims are false."
  },
  {
   "property": "C107",
   "status": "proved",
   "theorems": [
    "C107_spreading_is_nothing",
    "C107_names_do_not_count"
   ],
   "note": "Conditions: those of C99 (held) in both histories. About general votes only; making proposals and rewards have minimum weights, and the council counts as in C103."
  },
  {
   "property": "C108",
   "status": "proved",
   "theorems": [
    "C108_vote_not_regretted"
   ],
   "note": "Conditions: those of C85 for the vote (free_calls, timely, lasting, calm, clock_has_room) and of C99 (held) for the two decisions. That the other conditions are needed is shown by C106_quorum_refuted, C106_dilution_refuted and C106_stronger_refuted, whose histories differ in one last vote."
  },
  {
   "property": "C109",
   "status": "proved",
   "theorems": [
    "C109_lists_exact",
    "C109_lists_take_effect",
    "C109_majority_lists",
    "C109_cw1155_refuted"
   ],
   "note": "Conditions: the treasury was created with the controller as admin and no TrSetAdmin message has reached it (treasury_kept); free_calls, lasting; the addresses are valid (checked when a proposal is made, C87) and no cw1155 asset is to be added. C109_cw1155_refuted: without the last the claim is false of the code. C109_majority_lists has the conditions of C99 besides."
  },
  {
   "property": "C110",
   "status": "proved",
   "theorems": [
    "C110_all_or_nothing",
    "C110_payments_exact",
    "C110_majority_pays",
    "C110_each_refuted"
   ],
   "note": "Conditions: the treasury was created with the controller as admin and no TrSetAdmin message has reached it (treasury_kept); free_calls, lasting; the payments do not run out of gas. Coins only: cw20 payments call token contracts, which may call back. C110_each_refuted: one refused payment stops the others. C110_majority_pays has the conditions of C99 besides."
  },
  {
   "property": "C111",
   "status": "proved",
   "theorems": [
    "C111_always_made",
    "C111_lists_always"
   ],
   "note": "For all histories from a new DAO; well_formed is the independent specification of C61. Version and rules are those of one moment, since both may change later (an upgrade may then be one to an older version). C111_lists_always has the conditions of C109, but for the one on addresses."
  }
 ]
}