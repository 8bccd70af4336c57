{"id": "C01", "title": "Reported tallies are exactly the stored votes", "statement": "At any time, the vote count a poll reports for an outcome equals the sum of the amounts of the votes currently recorded on that poll for that outcome (one per voter), as long as the amounts together fit in 128 bits; without that bound the equality still holds modulo 2^128 (the counters are native u128 compiled without overflow checks).", "quantifier": "every history of create-poll, cast-vote, update-votes and end-poll calls on the governance contract, any voters, amounts and times", "why_tests_cant": "histories are unbounded and the counters are maintained incrementally (decrease old vote, increase new vote); a missed decrease shows only on particular interleavings", "anchors": ["packages/poll-engine/src/execute.rs:cast_vote", "packages/poll-engine/src/state.rs:increase_results,decrease_results", "contracts/enterprise-governance/src/contract.rs:update_votes"]}
{"id": "C02", "title": "One vote per voter: re-voting replaces", "statement": "After a vote is accepted, the voter's recorded vote on that poll is exactly the new outcome and amount, nobody else's vote and no other poll changes, and the poll total changes by new amount minus the voter's previous amount.", "quantifier": "every reachable governance state, voter, poll, outcome, amount", "why_tests_cant": "needs all combinations of previous vote/outcome and all other voters and polls as frame", "anchors": ["packages/poll-engine/src/execute.rs:cast_vote"]}
{"id": "C03", "title": "Votes are frozen outside the voting window", "statement": "No call can change the tallies or recorded votes of a poll at a time before it starts, at or after its end time, or after it has been ended; attempts by vote are rejected and vote-weight updates leave it untouched.", "quantifier": "every reachable state, every call, every block time", "why_tests_cant": "boundary instants and every interleaving of ending, voting and weight updates", "anchors": ["packages/poll-engine/src/validate.rs:validate_within_voting_period,validate_not_already_ended", "contracts/enterprise-governance/src/contract.rs:update_votes"]}
{"id": "C04", "title": "The verdict of an ended poll is the documented voting rule", "statement": "Ending a poll records Passed exactly when turnout/available >= quorum, veto votes do not reach the veto threshold, Yes reaches the threshold (votes/non-abstaining votes) and, if No reaches it too, Yes has strictly more votes than No; otherwise it records Rejected with the matching reason (quorum, threshold, veto, no, draw). Ratios are 18-digit decimals rounded down.", "quantifier": "all tallies, all available-vote totals, all quorum/threshold/veto settings", "why_tests_cant": "arithmetic over all 128-bit tallies with rounding, including zero denominators", "anchors": ["packages/poll-engine/src/state.rs:final_status,most_voted_over_threshold,ge_threshold,quorum_reached"]}
{"id": "C05", "title": "A poll that has ended never goes back to in-progress", "statement": "Once a poll has status Passed or Rejected, no later call makes it InProgress again. Calling end-poll with error_if_already_ended leaves it untouched and errors.", "quantifier": "every history of governance calls", "why_tests_cant": "unbounded histories", "anchors": ["packages/poll-engine/src/execute.rs:end_poll"]}
{"id": "C06", "title": "Poll ids are fresh and poll terms never change", "statement": "Creating a poll returns an id never used before and equal to the number of polls created so far; afterwards no call changes its proposer, deposit amount, start, end, quorum, threshold or veto threshold.", "quantifier": "every history of governance calls (poll counter below 2^64)", "why_tests_cant": "unbounded histories", "anchors": ["packages/poll-engine/src/execute.rs:create_poll", "packages/poll-engine/src/state.rs:increment_poll_id"]}
{"id": "C07", "title": "Only the admin (the controller) can touch the governance contract", "statement": "A message to the governance contract from any sender other than its admin is rejected and changes nothing; the admin never changes by any execute message.", "quantifier": "every sender, message and state", "why_tests_cant": "all senders and messages", "anchors": ["contracts/enterprise-governance/src/contract.rs:execute"]}
{"id": "C08", "title": "A poll can be ended early only with quorum and a decided option", "statement": "Ending a poll before its end time succeeds only if early ending is allowed, the turnout already reaches quorum and some option (or a Yes/No draw) is over its threshold; with early ending disallowed it always errors before the end time. It is NOT guaranteed that the remaining voters could not have changed the verdict.", "quantifier": "all polls, times, totals", "why_tests_cant": "needs all tallies/times; the negative part is a counter-example", "anchors": ["packages/poll-engine/src/validate.rs:validate_can_end_early,validate_voting_period_ended"]}
{"id": "C09", "title": "Simulated verdict equals recorded verdict", "statement": "The status returned by the simulate-end-poll query is exactly the status that ending the poll with the same available votes would record.", "quantifier": "all states, polls, totals", "why_tests_cant": "two code paths must agree on every tally", "anchors": ["packages/poll-engine/src/query.rs:query_simulate_end_poll_status", "packages/poll-engine/src/execute.rs:end_poll"]}
{"id": "C10", "title": "A weight update follows the voter on every open poll and nowhere else", "statement": "Updating a voter's available votes to X makes every vote of that voter on a poll that is open (in progress, end time in the future) have amount X with unchanged outcome; votes of others and votes on polls that are not open are unchanged.", "quantifier": "every reachable governance state, voter and amount", "why_tests_cant": "arbitrary numbers of polls per voter", "anchors": ["contracts/enterprise-governance/src/contract.rs:update_votes"]}
{"id": "C11", "title": "Rewards are never over-promised", "statement": "For every asset, what the distributor has paid out plus what all users can still claim never exceeds what was distributed through it.", "quantifier": "every history of distributions, weight updates, minimum-weight changes and claims", "why_tests_cant": "rounding and interleaving of index updates over unbounded histories", "anchors": ["contracts/funds-distributor/src/claim.rs", "contracts/funds-distributor/src/distributing.rs", "contracts/funds-distributor/src/rewards.rs", "contracts/funds-distributor/src/user_weights.rs", "contracts/funds-distributor/src/eligibility.rs"]}
{"id": "C12", "title": "Every distribution is shared in proportion to effective weight", "statement": "A distribution of amount A with total effective weight T raises the claimable reward of a user with effective weight w by A*w/T up to rounding: never more than A*w/T+1, and less by strictly less than w/10^18 + 1 unit.", "quantifier": "all states, users, amounts, weights", "why_tests_cant": "all 128-bit amounts and weights", "anchors": ["contracts/funds-distributor/src/distributing.rs:distribute_native,distribute_cw20", "contracts/funds-distributor/src/rewards.rs:calculate_user_reward"]}
{"id": "C13", "title": "No retroactive rewards, no loss on weight change", "statement": "A weight update changes nobody's currently claimable reward - neither the updated users' nor anyone else's; in particular a newcomer starts at zero and a leaver keeps what was earned.", "quantifier": "every reachable distributor state, every weight update list", "why_tests_cant": "needs the relation between indices, pending rewards and weights for all histories", "anchors": ["contracts/funds-distributor/src/user_weights.rs:update_user_weights_checked", "contracts/funds-distributor/src/native_distributions.rs", "contracts/funds-distributor/src/cw20_distributions.rs"]}
{"id": "C14", "title": "A claim pays exactly what the rewards query shows, once", "statement": "Claiming an asset sends the user exactly the amount the rewards query reported just before (no message if zero), afterwards the query reports zero for it, other assets and users are unchanged, and claiming again without a new distribution pays nothing.", "quantifier": "every reachable state, user, and list of assets (also with repetitions)", "why_tests_cant": "claim and query are different code paths with different default handling", "anchors": ["contracts/funds-distributor/src/claim.rs", "contracts/funds-distributor/src/rewards.rs:query_user_rewards"]}
{"id": "C15", "title": "Only the unrestricted user can claim their rewards", "statement": "A claim succeeds only if sent by the user it names and that user is not restricted.", "quantifier": "all senders, users, states", "why_tests_cant": "authorization for all callers", "anchors": ["contracts/funds-distributor/src/claim.rs:claim_rewards"]}
{"id": "C16", "title": "Minimum-weight eligibility is exact and never changes what was already earned", "statement": "At any time a user's effective weight is their weight if it is at least the minimum and zero otherwise, and the total used for distribution is the sum of the effective weights; changing the minimum changes nobody's currently claimable reward.", "quantifier": "every history of weight updates and minimum changes", "why_tests_cant": "incremental range-based update over unbounded user sets", "anchors": ["contracts/funds-distributor/src/eligibility.rs", "contracts/funds-distributor/src/user_weights.rs"]}
{"id": "C17", "title": "Distributor weights are admin-controlled and initial weights are unique", "statement": "Only the admin can change weights or the minimum; instantiation with a duplicated user is rejected; weights change in no other way.", "quantifier": "all senders, messages", "why_tests_cant": "authorization for all callers", "anchors": ["contracts/funds-distributor/src/user_weights.rs", "contracts/funds-distributor/src/eligibility.rs"]}
{"id": "C18", "title": "Only whitelisted assets are distributed", "statement": "A distribution succeeds only if every asset in it is on the DAO treasury's whitelist or the global whitelist, however long the lists are (they are read page by page); and if all are whitelisted and the total weight is non-zero it is not rejected for whitelisting.", "quantifier": "all whitelists of any length, all asset lists", "why_tests_cant": "pagination over unbounded lists", "anchors": ["contracts/funds-distributor/src/distributing.rs:assert_assets_whitelisted", "contracts/enterprise-treasury/src/contract.rs:query_asset_whitelist"]}
{"id": "C19", "title": "Total weight is the sum of member weights", "statement": "In each membership contract (token, denom, NFT, multisig) the reported current total weight equals the sum of all members' reported weights.", "quantifier": "every history of stakes, unstakes, claims, member updates", "why_tests_cant": "unbounded histories of incremental updates", "anchors": ["packages/membership-common/src/*", "packages/token-staking-impl/src/execute.rs", "packages/denom-staking-impl/src/execute.rs", "packages/nft-staking-impl/src/execute.rs", "packages/multisig-membership-impl/src/execute.rs"]}
{"id": "C20", "title": "Historical total weight is what it was then", "statement": "The total weight queried at height h (or at second t) is the total as it stood at the start of that block/second; later changes never alter the answer for a past height/time.", "quantifier": "every history with non-decreasing heights and times", "why_tests_cant": "all histories and query points", "anchors": ["packages/membership-common/src/total_weight.rs"]}
{"id": "C21", "title": "Staking contracts can always pay back: deposits = stakes + claims", "statement": "For token and denom staking, the amount received minus the amount paid out equals the sum of all stakes plus all outstanding claims.", "quantifier": "every history of accepted stake, unstake, claim, migration (add stakes/claims) messages", "why_tests_cant": "unbounded histories", "anchors": ["packages/token-staking-impl/src/execute.rs", "packages/denom-staking-impl/src/execute.rs"]}
{"id": "C22", "title": "Claims pay out only after release, fully and once", "statement": "A claim call by a user pays exactly the sum of the user's claims whose release point has been reached, removes exactly those, and leaves all other claims; nobody else can trigger it for them.", "quantifier": "every state, user, time", "why_tests_cant": "all claim sets and times", "anchors": ["packages/token-staking-impl/src/execute.rs:claim", "packages/denom-staking-impl/src/execute.rs:claim", "packages/nft-staking-impl/src/execute.rs:claim"]}
{"id": "C23", "title": "Unstaking is limited to the own stake and creates a claim of the same size released one unlocking period later", "statement": "Unstake by a user of amount a succeeds only if a <= their stake, reduces stake, weight and total by a and adds one claim of a releasing at now + unlocking period; nothing of other users changes. For periods so large that now+period does not fit in 64 bits the release point wraps (native arithmetic), and the claim can be due much earlier, even in the next block.", "quantifier": "every state, user, amount, period, time", "why_tests_cant": "64-bit boundary and all states", "anchors": ["packages/token-staking-impl/src/execute.rs:unstake,calculate_release_at", "packages/denom-staking-impl/src/execute.rs", "packages/nft-staking-impl/src/execute.rs"]}
{"id": "C24", "title": "Every deposited NFT is accounted for exactly once", "statement": "Each NFT handed to the staking contract is, until paid out, in exactly one place: staked by one user or in exactly one claim; it leaves only to the user who staked it (or was named in the claim).", "quantifier": "every history of NFT stake, unstake, claim, given the collection only sends NFTs it owns", "why_tests_cant": "unbounded histories and token sets", "anchors": ["packages/nft-staking-impl/src/execute.rs", "packages/nft-staking-impl/src/nft_staking.rs", "packages/nft-staking-impl/src/claims.rs"]}
{"id": "C25", "title": "Every weight change is reported to the hooks", "statement": "Whenever a membership message changes a user's weight, each registered hook is sent a report naming that user with old and new weight. (False for replacing the whole multisig member list: removed members are not reported.)", "quantifier": "every state and message of the four membership contracts", "why_tests_cant": "all member lists", "anchors": ["packages/membership-common/src/weight_change_hooks.rs", "packages/multisig-membership-impl/src/execute.rs:set_members"]}
{"id": "C26", "title": "Membership settings and member lists change only by the governance controller", "statement": "Unlocking period, hooks, multisig members can be changed only by the DAO's governance controller; staked amounts change only through the configured token/denom/NFT collection or the staker.", "quantifier": "all senders and messages", "why_tests_cant": "all callers", "anchors": ["packages/membership-common/src/validate.rs", "packages/*-impl/src/execute.rs"]}
{"id": "C27", "title": "A proposal is resolved at most once", "statement": "Once a proposal has been executed (passed or rejected) every later attempt to execute it fails, and its executed marker never changes.", "quantifier": "every history of transactions on a DAO, including messages run by proposals themselves", "why_tests_cant": "re-entrancy through proposal actions and replies", "anchors": ["contracts/enterprise-governance-controller/src/contract.rs:execute_proposal,resolve_ended_proposal", "contracts/enterprise-governance-controller/src/proposals.rs:set_proposal_executed"]}
{"id": "C28", "title": "Actions run only for passed proposals", "statement": "Proposal actions are dispatched only by the controller itself, only as part of resolving a proposal whose poll is recorded Passed, at most once, and they are exactly the actions stored at creation, in order - as long as no executed proposal makes the controller call itself, governance or membership by custom messages (ExecuteMsgs). Without that condition it is false: a passed proposal can run the actions of one that is still open.", "quantifier": "every transaction history in which no proposal that was run has such custom messages", "why_tests_cant": "every caller and call path", "anchors": ["contracts/enterprise-governance-controller/src/contract.rs:execute_proposal_actions,resolve_ended_proposal,reply"]}
{"id": "C29", "title": "Deposits are returned or confiscated exactly once, by the documented rule", "statement": "When a proposal is resolved its deposit is sent exactly once: to the depositor if passed or rejected by threshold/no/draw, to the treasury if quorum was not reached or it was vetoed. Before resolution it is not sent at all. This holds as long as no executed proposal pays from the controller, or makes it call itself, governance or membership, by custom messages (ExecuteMsgs); without that condition it is false: a passed proposal can give away the deposit of another one.", "quantifier": "every history in which no proposal that was run has such custom messages, all deposit kinds (native, cw20, NFTs)", "why_tests_cant": "all outcomes and histories", "anchors": ["contracts/enterprise-governance-controller/src/contract.rs:resolve_ended_proposal,send_proposal_deposit_to"]}
{"id": "C30", "title": "No execution before its time", "statement": "A proposal is resolved only at or after its end time, unless early execution is allowed for it, in which case only when the poll can be ended early and any execution delay recorded for it has passed.", "quantifier": "all histories and block times", "why_tests_cant": "boundary times, all interleavings", "anchors": ["contracts/enterprise-governance-controller/src/contract.rs:execute_proposal,end_proposal,reply"]}
{"id": "C31", "title": "Creating a proposal requires a sufficient deposit or membership, and no restriction", "statement": "A general proposal is created only if the proposer is unrestricted and either the required minimum deposit was attached, or no minimum is set and the proposer has voting weight; a council proposal only if the proposer is a council member, unrestricted, and every action type is allowed for the council.", "quantifier": "all senders, funds, configurations, action lists", "why_tests_cant": "all configurations", "anchors": ["contracts/enterprise-governance-controller/src/contract.rs:create_proposal,create_council_proposal,assert_sufficient_deposit_or_member"]}
{"id": "C32", "title": "Votes count with the voter's current weight, in the right chamber", "statement": "A vote on a general proposal is forwarded with exactly the voter's current membership weight (must be positive), on a council proposal with the council weight; voting on a proposal of the other kind is rejected; restricted users cannot vote.", "quantifier": "all senders, proposals, weights", "why_tests_cant": "all combinations", "anchors": ["contracts/enterprise-governance-controller/src/contract.rs:cast_vote,cast_council_vote"]}
{"id": "C33", "title": "Governance parameters are always sane", "statement": "At all times the stored configuration has vote duration > 0 and quorum, threshold and veto threshold in (0,1], and no minimum deposit for multisig DAOs; an update that would break this is rejected.", "quantifier": "every history of configuration updates", "why_tests_cant": "all update sequences", "anchors": ["contracts/enterprise-governance-controller/src/validate.rs:validate_dao_gov_config", "contracts/enterprise-governance-controller/src/contract.rs:update_gov_config,instantiate"]}
{"id": "C34", "title": "Unlocking period is at least the vote duration (refutable)", "statement": "A staker cannot withdraw before a vote they took part in ends: the time-based unlocking period is never shorter than the vote duration. (Checked at creation and when the unlocking period is changed, but not when only the vote duration is changed; height-based periods are never compared.)", "quantifier": "all sequences of configuration updates", "why_tests_cant": "needs update sequences across two contracts", "anchors": ["contracts/enterprise-governance-controller/src/contract.rs:update_gov_config", "contracts/enterprise-governance-controller/src/validate.rs:validate_unlocking_period"]}
{"id": "C35", "title": "Council powers are bounded", "statement": "A council proposal can only contain action types allowed for the council, and the allowed set can only ever contain metadata, asset/NFT whitelist, upgrade and cross-chain-treasury deployment; so a council proposal can never move treasury funds or change configuration.", "quantifier": "all configurations and proposals", "why_tests_cant": "all action lists", "anchors": ["contracts/enterprise-governance-controller/src/validate.rs:validate_allowed_council_proposal_types", "contracts/enterprise-governance-controller/src/contract.rs:create_council_proposal"]}
{"id": "C36", "title": "A failing action cannot block or undo the resolution", "statement": "If executing the actions of a passed proposal fails, all effects of the actions are rolled back, but the proposal stays executed and the deposit is returned.", "quantifier": "every DAO state and action list", "why_tests_cant": "failure at every position of the action list", "anchors": ["contracts/enterprise-governance-controller/src/contract.rs:resolve_ended_proposal,reply"]}
{"id": "C37", "title": "Council members have one vote each on council proposals (refutable)", "statement": "On every open council proposal each council member's recorded vote counts 1. (A change of the member's staked weight triggers a vote update on all their open polls, including council ones.)", "quantifier": "every transaction history of a DAO with a council", "why_tests_cant": "needs the composition of four contracts", "anchors": ["contracts/enterprise-governance-controller/src/contract.rs:weights_changed,update_user_votes", "contracts/enterprise-governance/src/contract.rs:update_votes"]}
{"id": "C38", "title": "Votes on open general proposals always equal current weights - no double voting by moving stake", "statement": "Between transactions, every recorded vote on an open general proposal has exactly the voter's current membership weight; hence the votes on an open general proposal never sum to more than the current total weight. This holds as long as no executed proposal makes the controller call itself, governance or membership by custom messages (ExecuteMsgs); without that condition it is false: a passed proposal can set votes at will.", "quantifier": "every transaction history of a DAO (token, denom, NFT or multisig) in which no proposal that was run has such custom messages", "why_tests_cant": "needs the composition membership -> hooks -> controller -> governance over all histories", "anchors": ["packages/membership-common/src/weight_change_hooks.rs", "contracts/enterprise-governance-controller/src/contract.rs:weights_changed", "contracts/enterprise-governance/src/contract.rs:update_votes"]}
{"id": "C39", "title": "Every deposit can eventually be released (refutable)", "statement": "For every proposal with a deposit there is, after its end time, an execute call that releases the deposit. (False when the total voting weight at the end time was zero: execution always fails with NoVotesAvailable.)", "quantifier": "every DAO history", "why_tests_cant": "liveness over all histories", "anchors": ["contracts/enterprise-governance-controller/src/contract.rs:end_proposal"]}
{"id": "C40", "title": "The status shown for a proposal is what executing it will record", "statement": "If the status query shows Passed or Rejected for an unexecuted proposal past its end, executing it then records that verdict; if it shows executed, it has been executed.", "quantifier": "every DAO state and time", "why_tests_cant": "two code paths over all states", "anchors": ["contracts/enterprise-governance-controller/src/contract.rs:fix_poll_status,end_proposal"]}
{"id": "C41", "title": "Restriction by attestation is enforced and only self-lifted", "statement": "While a DAO has an attestation, an address that has not signed it cannot stake, propose, vote, execute proposals or claim rewards; an address becomes a signer only by its own signature and never stops being one for that attestation.", "quantifier": "all histories of signatures, all callers", "why_tests_cant": "all callers and histories", "anchors": ["contracts/attestation/src/contract.rs", "contracts/enterprise/src/contract.rs:query_is_restricted_user"]}
{"id": "C42", "title": "Treasury funds move only on the admin's order", "statement": "Every treasury message other than continuing the legacy migration is rejected unless sent by the admin; a spend order emits exactly one transfer of that asset and amount to that recipient; a distribution order sends exactly the listed assets to the distributor.", "quantifier": "all senders, messages, asset lists", "why_tests_cant": "all callers and lists", "anchors": ["contracts/enterprise-treasury/src/contract.rs"]}
{"id": "C43", "title": "Whitelist paging returns every whitelisted asset exactly once", "statement": "Reading the asset whitelist page by page (start_after = last asset of the previous page, any page size) until a page is empty yields every whitelisted asset exactly once and nothing else; after update(add, remove) the whitelist is (old + add) - remove.", "quantifier": "all whitelists, all page sizes", "why_tests_cant": "pagination crosses three stores (native, cw20, cw1155)", "anchors": ["contracts/enterprise-treasury/src/asset_whitelist.rs", "contracts/enterprise-treasury/src/contract.rs:query_asset_whitelist,update_asset_whitelist"]}
{"id": "C44", "title": "Legacy migration moves every stake and claim exactly once", "statement": "Repeatedly continuing the migration moves every legacy stake and claim to the membership contract exactly once with the right owner, amount and release point, the total sent equals the total announced, and the stage becomes Completed only when nothing is left.", "quantifier": "all legacy ledgers, all limits per step", "why_tests_cant": "unbounded ledgers cut at arbitrary positions", "anchors": ["contracts/enterprise-treasury/src/migration.rs"]}
{"id": "C45", "title": "DAO upgrades go forward and run every intermediate migration", "statement": "An accepted upgrade strictly increases the DAO version and schedules exactly the migrations of all released versions above the old and up to the target one, in ascending order, whatever the number of released versions (they are read in pages). It is not guaranteed that the target version exists.", "quantifier": "all version registries, current and target versions", "why_tests_cant": "pagination over unbounded registries", "anchors": ["contracts/enterprise/src/contract.rs:upgrade_dao,get_versions_between_current_and_target", "contracts/enterprise-versioning/src/contract.rs:query_versions"]}
{"id": "C46", "title": "The version registry is append-only by its admin and reports the maximum as latest", "statement": "Only the admin adds or edits versions; adding never overwrites; editing keeps the version number set and untouched fields; the latest version is the greatest one by (major, minor, patch).", "quantifier": "all histories of registry messages", "why_tests_cant": "all histories", "anchors": ["contracts/enterprise-versioning/src/contract.rs"]}
{"id": "C47", "title": "DAO wiring is set once by its creator", "statement": "The component addresses of a DAO are set exactly once, only by the contract's creator; afterwards they never change except the attestation contract (by the controller); all management messages are rejected unless sent by the controller.", "quantifier": "all histories and senders", "why_tests_cant": "all callers and histories", "anchors": ["contracts/enterprise/src/contract.rs:finalize_instantiation"]}
{"id": "C48", "title": "A new DAO's reward weights are its members' weights (refutable)", "statement": "When a DAO is created, the funds distributor starts with exactly the initial membership weights (none for staking DAOs, the members for multisig DAOs). (False for staking DAOs with a council: the council list leaks into the distributor.)", "quantifier": "all DAO creation requests", "why_tests_cant": "multi-step creation with shared scratch state", "anchors": ["contracts/enterprise-factory/src/contract.rs:reply", "contracts/enterprise-factory/src/multisig_membership.rs:instantiate_multisig_membership_contract"]}
{"id": "C49", "title": "DAO creation wires the contracts together consistently", "statement": "A successful creation registers the DAO under a fresh id, and finalizes it with the addresses of exactly the contracts created for it: governance, treasury and distributor administered by the controller, hooks of both memberships pointing to the controller, everything migratable only by the DAO itself.", "quantifier": "all creation requests, all instantiate addresses", "why_tests_cant": "eleven-step reply state machine", "anchors": ["contracts/enterprise-factory/src/contract.rs"]}
{"id": "C50", "title": "At most one treasury and one proxy per foreign chain", "statement": "For each chain id at most one proxy and one treasury is ever recorded and never overwritten; a deployment callback is accepted only from the expected sender and only once; remote treasury orders are sent only by the controller and only to recorded deployments.", "quantifier": "all histories of deploy/execute/callback messages", "why_tests_cant": "interleaved concurrent deployments", "anchors": ["contracts/enterprise-outposts/src/contract.rs"]}
{"id": "C51", "title": "Bridged NFTs are staked one by one for the named user", "statement": "A bridge callback is accepted only from the configured bridge contract and produces exactly one send-and-stake per bridged token, to the named membership contract for the named user.", "quantifier": "all callbacks", "why_tests_cant": "all token lists", "anchors": ["packages/ics721-callback-proxy-impl/src/execute.rs"]}
{"id": "C52", "title": "A weight shift cannot flip an outcome without the execution delay (refutable)", "statement": "When early execution is allowed, a proposal that becomes executable early can only be executed after the configured delay (a tenth of the vote duration) since it became executable. (False: the delay is only recorded when a vote is cast, not when weights change.)", "quantifier": "every DAO history", "why_tests_cant": "cross-contract histories", "anchors": ["contracts/enterprise-governance-controller/src/contract.rs:reply,weights_changed"]}
{"id": "C53", "title": "Reward bookkeeping never blocks weight updates", "statement": "While what was distributed per asset fits 128 bits, an admin's weight update with valid addresses succeeds unless the total effective weight would exceed 128 bits: settling rewards of existing users can never make staking or unstaking fail.", "quantifier": "all reachable distributor states, all update lists", "why_tests_cant": "needs the overflow behaviour of all intermediate products over all histories", "anchors": ["contracts/funds-distributor/src/user_weights.rs:update_user_weights"]}
{"id": "C54", "title": "Any amount of a whitelisted asset can be distributed (refutable)", "statement": "While the total weight is non-zero, any amount of a whitelisted asset can be distributed. (False: the per-weight index is a 128-bit decimal with 18 digits; the exact limit is proved.)", "quantifier": "all states and amounts", "why_tests_cant": "boundary is at 2^128/10^18 per unit of weight", "anchors": ["contracts/funds-distributor/src/distributing.rs"]}
{"id": "C55", "title": "Poll listing is complete and ordered", "statement": "The poll listing returns exactly the polls of the requested status whose ids lie in the requested range (lower bound exclusive, upper inclusive), in id order or its reverse, cut at the limit.", "quantifier": "every history, every filter, range, limit and order", "why_tests_cant": "all histories and all paging parameters", "anchors": ["packages/poll-engine/src/query.rs:query_polls"]}
{"id": "C56", "title": "An ended poll's verdict is final (refutable)", "statement": "Once a poll has been ended its recorded verdict never changes. (False of the governance contract: a lenient end-poll recomputes it for the votes available at that time.)", "quantifier": "every history of governance calls", "why_tests_cant": "needs re-ending with a different total", "anchors": ["packages/poll-engine/src/execute.rs:end_poll"]}
{"id": "C57", "title": "NFT voting weight is the number of NFTs staked", "statement": "In every reachable state of the NFT staking contract a user's weight equals the number of NFTs recorded as staked by them.", "quantifier": "every reachable state and every user", "why_tests_cant": "over unbounded sequences of stakes, unstakes and migrations", "anchors": ["packages/nft-staking-impl/src/execute.rs:stake_nft", "packages/nft-staking-impl/src/execute.rs:unstake"]}
{"id": "C58", "title": "Each kind of proposal action does exactly what it says", "statement": "Running an action either fails or has exactly its documented effect: which stored setting changes and which message goes to which contract of the DAO (or, through the outposts contract, to a foreign-chain treasury), with which content.", "quantifier": "all states, all DAO types, all actions of all kinds", "why_tests_cant": "all combinations of settings and actions", "anchors": ["contracts/enterprise-governance-controller/src/contract.rs:execute_proposal_actions_submsgs", "contracts/enterprise-governance-controller/src/contract.rs:update_gov_config", "contracts/enterprise-governance-controller/src/contract.rs:update_council"]}
{"id": "C59", "title": "Weight reports are forwarded completely and only from the membership contract", "statement": "A weight report from the DAO's membership contract is forwarded, for every user in it and in order, to the governance contract and, as one list, to the funds distributor; reports of the council's membership contract change nothing; reports from anyone else are rejected.", "quantifier": "all states, all senders, all reports", "why_tests_cant": "all reports of any length", "anchors": ["contracts/enterprise-governance-controller/src/contract.rs:weights_changed", "contracts/enterprise-governance-controller/src/contract.rs:update_user_votes"]}
{"id": "C60", "title": "Initial cross-chain treasuries are deployed once, at creation, by the creator", "statement": "The initial cross-chain treasuries are deployed only in the block the controller was created in and only on the order of its creator; all of them, and never again.", "quantifier": "all histories, all senders", "why_tests_cant": "histories of any length", "anchors": ["contracts/enterprise-governance-controller/src/contract.rs:execute_deploy_initial_cross_chain_treasuries"]}
{"id": "C61", "title": "Only well-formed actions can be proposed", "statement": "A proposal is accepted only if it has at most ten actions and each is well-formed: no duplicate or contradictory whitelist changes, valid addresses, parseable messages, an upgrade to a higher version, a sane configuration, a sane council, no multi-token assets in spending, no membership edits outside multisig DAOs; a new proposal starts unexecuted and undelayed.", "quantifier": "all states, all action lists of any content", "why_tests_cant": "all combinations of actions", "anchors": ["contracts/enterprise-governance-controller/src/validate.rs:validate_proposal_actions"]}
{"id": "C62", "title": "The proposal listing is complete", "statement": "The proposal listing shows, in order, every poll of the requested page that belongs to a proposal, with its type, actions, votes, end, status and the voting weight available at its end (or its execution, or now).", "quantifier": "all states, filters, pages and times", "why_tests_cant": "all states and paging parameters", "anchors": ["contracts/enterprise-governance-controller/src/contract.rs:query_proposals", "contracts/enterprise-governance-controller/src/contract.rs:poll_to_proposal_response"]}
{"id": "C63", "title": "The migration does not change the weights the old DAO reports", "statement": "While stakes are moved to the membership contract, step by step and mixed with any other calls, the treasury's answers for every user's weight and for every past or current total weight stay the same.", "quantifier": "all legacy ledgers, all histories of calls, all users and query points", "why_tests_cant": "unbounded ledgers and histories", "anchors": ["contracts/enterprise-treasury/src/contract.rs:query_user_weight,query_total_weight", "contracts/enterprise-treasury/src/migration.rs"]}
{"id": "C64", "title": "Migrating the root contract moves four component contracts to fixed codes", "statement": "The migration of the root contract orders exactly four further migrations, with empty messages: the outposts, the funds distributor, the membership contract (with the code for the DAO's type) and the council membership contract, all to the codes registered for version 1.2.1; it needs that version and the wiring to exist and changes nothing in the root contract's own state.", "quantifier": "all DAOs, all registries", "why_tests_cant": "all registries and wirings", "anchors": ["contracts/enterprise/src/contract.rs:migrate"]}
{"id": "C65", "title": "A DAO's own new token is on its treasury's whitelist (refutable)", "statement": "When a DAO is created with a token or an NFT collection of its own, that token or collection is on the whitelist of the DAO's treasury. (False: the treasury is instantiated before the token, so the lists hold only what was requested.)", "quantifier": "all creation requests", "why_tests_cant": "all creation requests and address assignments", "anchors": ["contracts/enterprise-factory/src/contract.rs:reply", "contracts/enterprise-factory/src/state.rs:DaoBeingCreated"]}
{"id": "C66", "title": "The membership contract has what it owes to stakers", "statement": "At every moment between transactions of a DAO that stakes a cw20 token or a native denomination, the membership contract's balance of the staked asset is at least the sum of all stakes and all unpaid claims, whatever anyone has called in between, provided the asset's own ledger is honest (nothing leaves the contract except by its own transfers, and a receipt is only notified after the tokens have arrived).", "quantifier": "all DAOs, all histories of transactions with any nesting of calls, all honest ledgers", "why_tests_cant": "histories of any length and nesting, arbitrary outside contracts calling back", "anchors": ["packages/token-staking-impl/src/execute.rs", "packages/denom-staking-impl/src/execute.rs", "contracts/token-staking-membership/src/contract.rs"]}
{"id": "C67", "title": "Every staked or claimed NFT is with the membership contract, and in one place", "statement": "At every moment between transactions of a DAO that stakes NFTs, an NFT that is staked, or that a claim promises, is owned by the membership contract, and it is never staked and claimed at once nor in two claims, provided the collection's ledger is honest.", "quantifier": "all DAOs, all histories of transactions with any nesting of calls, all NFTs", "why_tests_cant": "histories of any length and nesting", "anchors": ["packages/nft-staking-impl/src/execute.rs", "contracts/nft-staking-membership/src/contract.rs"]}
{"id": "C68", "title": "The funds distributor has the rewards it owes", "statement": "At every moment between transactions, the funds distributor's balance of an asset is at least what any set of users could claim of it together, provided the asset's ledger is honest.", "quantifier": "all DAOs, all histories of transactions with any nesting of calls, all assets, all sets of users", "why_tests_cant": "histories of any length and nesting", "anchors": ["contracts/funds-distributor/src/claim.rs", "contracts/funds-distributor/src/native_distributions.rs", "contracts/funds-distributor/src/cw20_distributions.rs"]}
{"id": "C69", "title": "A created DAO is a well-formed DAO", "statement": "If CreateDao succeeds on the factory and every contract it orders is instantiated (and the enterprise contract accepts FinalizeInstantiation), then the eight contracts together are a new DAO: eight different addresses, the enterprise contract finalized and wired to exactly the contracts created, the controller, governance, membership and council instantiated for each other, the controller the only weight-change hook of the membership, the distributor, treasury and outposts obeying it, with nothing proposed or executed yet. Hence every whole-DAO theorem (at most one execution per proposal, exact deposits, and so on) holds of every history of every DAO created by the factory.", "quantifier": "all factory states, callers, CreateDao messages of all membership kinds, fresh address lists, registry answers and blocks; all later histories", "why_tests_cant": "Integration tests instantiate hand-wired suites; the link from factory replies to the invariants of the finished DAO spans eleven contracts.", "anchors": ["contracts/enterprise-factory/src/contract.rs create_dao", "contracts/enterprise-factory/src/contract.rs reply", "contracts/enterprise/src/contract.rs finalize_instantiation", "contracts/enterprise-governance-controller/src/contract.rs instantiate"]}
{"id": "C70", "title": "Each contract of a DAO has a history of its own", "statement": "In every history of a DAO, the state of each of its eight contracts is the state reached from its initial state by a history of calls to that contract alone: these calls are exactly the calls the contract received according to the log, in their order, with the sender, message and coins of the log and the block of the transaction they were part of. Hence every property of all histories of a single contract (C01-C26, C35, C42, C50 and so on) holds of the contract within the DAO.", "quantifier": "all DAOs, all outsides, all histories of transactions with any nesting of calls, failures and rollbacks", "why_tests_cant": "histories of any length and nesting, with calls that fail and are rolled back", "anchors": ["contracts/enterprise-governance-controller/src/contract.rs:execute,reply", "contracts/enterprise-governance/src/contract.rs", "contracts/funds-distributor/src/contract.rs", "contracts/enterprise-treasury/src/contract.rs"]}
{"id": "C71", "title": "The facade shows one DAO under two addresses", "statement": "The facade contract serves a DAO both under the address of its enterprise contract and under that of its treasury, with the same answer to every query and the same adapted messages for every request, as long as the treasury has kept the controller as its admin; under any other address of the DAO's contracts it refuses; a DAO of the old code is passed to the facade for the old code.", "quantifier": "all DAOs, all histories, all queries and requests, all addresses", "why_tests_cant": "all histories and all 32 kinds of query", "anchors": ["contracts/enterprise-facade/src/facade.rs:get_facade", "contracts/enterprise-facade/src/contract.rs:query"]}
{"id": "C72", "title": "Adapted messages do what was asked", "statement": "For every request but the execution of a proposal, the facade gives exactly the messages that the request means for a DAO of that type: to the right contract, with the right content and coins, in the right order; and refuses when the request is impossible for that type of DAO. (The type is not checked for unstaking.)", "quantifier": "all DAOs with their asset, all histories, all requests", "why_tests_cant": "all requests of any size, all DAO types", "anchors": ["contracts/enterprise-facade-v2/src/facade_v2.rs:adapt_create_proposal,adapt_cast_vote,adapt_stake,adapt_unstake,adapt_claim"]}
{"id": "C73", "title": "Messages to execute a proposal pay for exactly the calls abroad", "statement": "The messages for executing a proposal send the outposts contract one uluna for every action that concerns another chain (nothing if there is none) and then call the controller; that is as many coins as the controller then makes calls of the outposts contract, each of which sends one coin abroad. (Calls in custom messages are not counted, and a first deployment sends a second coin later, which is not paid.)", "quantifier": "all DAOs, histories, proposals with any list of actions", "why_tests_cant": "all action lists of any length", "anchors": ["contracts/enterprise-facade-v2/src/facade_v2.rs:adapt_execute_proposal", "contracts/enterprise-outposts/src/contract.rs:deploy_cross_chain_treasury,execute_msg_treasury"]}
{"id": "C74", "title": "The facade's answers agree with the DAO and with each other", "statement": "Voting powers are the weights' shares of the total and any set of them sums to at most one; the total staked is the sum of the stakes shown; the proposal, its status, the list of proposals, the votes on it and a member's vote agree; releasable claims are those of the claims whose time has come; the migration stage agrees with whether a migration is incomplete.", "quantifier": "all DAOs, all histories, all queries", "why_tests_cant": "relations between different queries over all states", "anchors": ["contracts/enterprise-facade-v2/src/facade_v2.rs:query_member_info,query_proposal,query_proposals,query_proposal_status,query_proposal_votes,query_user_stake,query_total_staked_amount,query_claims,query_releasable_claims,query_v2_migration_stage"]}
{"id": "C75", "title": "DaoInfo shows the DAO's settings", "statement": "DaoInfo answers exactly with the metadata, type, version, settings (the veto threshold defaulting to the threshold), membership asset and unlocking period, and council (at most the first hundred members) that the contracts hold; the code version is 10000 major + 100 minor + patch, which tells versions apart if minor and patch are below 100.", "quantifier": "all DAOs, all histories, all versions", "why_tests_cant": "all states and versions", "anchors": ["contracts/enterprise-facade-v2/src/facade_v2.rs:query_dao_info,get_version_as_u64"]}
{"id": "C76", "title": "Requests are translated faithfully for DAOs of the old code", "statement": "For a DAO of the old code, the actions of a proposal are translated one by one, in order; an action without another chain and not an upgrade means the same after translation there and back; what has no translation is refused; each request gives exactly the one message (or one per NFT) it means. (A treasury of another chain is silently dropped from funding and whitelist actions, as are the owner of the deposit and the user to stake for.)", "quantifier": "all old DAOs, all registries, all requests", "why_tests_cant": "all action lists of any length", "anchors": ["contracts/enterprise-facade-v1/src/facade_v1.rs:map_proposal_action_to_v5,adapt_create_proposal,adapt_stake", "contracts/enterprise-facade-v1/src/v1_structs.rs"]}
{"id": "C77", "title": "Proposals of DAOs of the old code are shown with the status their votes deserve", "statement": "A proposal of a DAO of the old code that is recorded as in progress is shown as passed or rejected once its time is over, by the voting rule with the DAO's settings; before, as executable early exactly if that is allowed and the outcome is decided; other statuses are shown as recorded; the three queries agree. (False for council proposals read as being judged by the council's own quorum and threshold.)", "quantifier": "all old DAOs, all proposals, votes and times", "why_tests_cant": "all vote counts and settings", "anchors": ["contracts/enterprise-facade-v1/src/facade_v1.rs:fix_proposal_response,resolve_in_progress_proposal_status"]}
{"id": "C78", "title": "Listings read page by page are complete", "statement": "A client that reads a listing page by page, each page starting after the last key of the page before, until a page is empty, reads every entry exactly once and in order, whatever page size it asks for (except zero): members, staked NFTs, a user's NFTs, treasuries of other chains, DAOs of the factory, votes on a proposal, and the DAO's proposals with any status filter. Every poll of the governance contract belongs to a proposal of the controller. (The last two fail if a proposal used custom messages to open polls: then a page may be empty although proposals follow.)", "quantifier": "all states, all DAOs and histories, all page sizes and filters", "why_tests_cant": "listings of any length with pages of any size; the dependence of two contracts' storages on each other", "anchors": ["packages/multisig-membership-impl/src/query.rs:query_members", "packages/nft-staking-impl/src/query.rs:query_staked_nfts,query_user_nft_stake", "packages/poll-engine/src/query.rs:query_polls,query_poll_voters", "contracts/enterprise-governance-controller/src/contract.rs:query_proposals", "contracts/enterprise-outposts/src/contract.rs:query_cross_chain_treasuries", "contracts/enterprise-factory/src/contract.rs:query_all_daos"]}
{"id": "C79", "title": "The controller has the deposits of all open proposals", "statement": "At every moment the controller has at least the deposits of all proposals not yet resolved together: coins, tokens and NFTs; and no NFT is the deposit of two open proposals. This holds whatever anybody does and however calls nest, if the assets' ledgers are honest and no proposal that was run used custom messages to give the controller's assets away (or, for NFTs, to deposit one again). With such messages it is false.", "quantifier": "all DAOs, all honest ledgers, all histories of transactions with any nesting of calls, all assets", "why_tests_cant": "histories of any length with any number of open proposals", "anchors": ["contracts/enterprise-governance-controller/src/contract.rs:determine_deposit_and_create_proposal,create_proposal_with_nft_deposit,receive_cw20,return_proposal_deposit_submsgs,resolve_ended_proposal"]}
{"id": "C80", "title": "Reward weights follow voting weights", "statement": "In every history of a DAO, whatever anybody does and however calls nest, a user's weight in the funds distributor is the voting weight the membership contract records at that moment, unless neither has changed since the DAO was created; so distributions are shared by the members in proportion to their current voting weights, those below the minimum left out, and by nobody else. This holds if no proposal that was run used custom messages to write reward weights, to change the hooks or to set the member list. In a DAO created by the factory the weights agree from the start, except that (surprisingly) the council members of a DAO with staking start with reward weight 1 though they have staked nothing; and after a member list is set by a custom message those left out keep their reward weight.", "quantifier": "all DAOs, all histories of transactions with any nesting of calls, all users", "why_tests_cant": "agreement of the storages of three contracts over histories of any length", "anchors": ["contracts/enterprise-governance-controller/src/contract.rs:weights_changed", "contracts/funds-distributor/src/user_weights.rs:update_user_weights", "packages/multisig-membership-impl/src/execute.rs:set_members,update_members", "contracts/enterprise-factory/src/contract.rs:reply", "contracts/enterprise-factory/src/multisig_membership.rs"]}
{"id": "C81", "title": "Members can always unstake", "statement": "Whatever has happened in a DAO with staking, a member who asks to unstake at most what they have staked succeeds: the membership contract, the controller, every open poll they voted in and the funds distributor accept the change, the weight falls by exactly that amount, the claim is recorded with its release point, and nothing else in the DAO changes. Likewise for NFTs, and from the start in DAOs created by the factory. It assumes that every reward fits into 128 bits (true if distributed assets have honest ledgers), that the release point exists, and that no proposal that was run used custom messages to call the controller, the governance or membership contract or to write reward weights. Without the first it is false: one whitelisted token that reports amounts nobody sent locks a member with more than 10^18 units in forever.", "quantifier": "all DAOs with staking, all histories of transactions with any nesting of calls, all members and amounts", "why_tests_cant": "success of a transaction through four contracts in every reachable state", "anchors": ["packages/token-staking-impl/src/execute.rs:unstake", "packages/nft-staking-impl/src/execute.rs:unstake", "packages/membership-common/src/weight_change_hooks.rs:report_weight_change_submsgs", "contracts/enterprise-governance-controller/src/contract.rs:weights_changed", "contracts/funds-distributor/src/user_weights.rs:update_user_weights"]}
{"id": "C82", "title": "What is due can always be claimed", "statement": "When a claim's release point has come, claiming succeeds in every reachable state of the DAO, removes exactly the due claims and pays exactly their amount (or NFTs) to the claimant, on a chain with honest ledgers that pay. Likewise claiming rewards succeeds for a user not kept out by an attestation, pays each reward asked for exactly once and only positive ones, and leaves nothing of these and all other rewards as they were.", "quantifier": "all DAOs, all histories, all honest ledgers, all users, times and lists of assets", "why_tests_cant": "success in every reachable state, against every ledger", "anchors": ["packages/token-staking-impl/src/execute.rs:claim", "packages/denom-staking-impl/src/execute.rs:claim", "packages/nft-staking-impl/src/execute.rs:claim", "contracts/funds-distributor/src/claim.rs:claim_rewards"]}
{"id": "C83", "title": "The treasury sends exactly what proposals ordered", "statement": "In every history of a DAO, whatever anybody does and however calls nest, the messages sent by the treasury are exactly those ordered by the proposals whose actions were run (requested funding, distributions to members, treasury messages, and messages of choice to the treasury), each as often as it was ordered. If moreover no proposal that was run calls the DAO's contracts by messages of choice, each of these proposals had passed and was run once. So on a chain that takes from the treasury only what its own messages cost, its balance falls by at most the sum of what passed proposals ordered. It assumes that the treasury has kept its admin; without that, and for the second part without the condition on messages of choice, it is false.", "quantifier": "all DAOs, all histories of transactions with any nesting of calls, all proposals, all measures of messages", "why_tests_cant": "histories of any length; agreement of what one contract sends with what another has stored", "anchors": ["contracts/enterprise-treasury/src/contract.rs:spend,distribute_funds,execute_cosmos_msgs", "contracts/enterprise-governance-controller/src/contract.rs:execute_proposal_actions,execute_msgs,distribute_funds"]}
{"id": "C84", "title": "Settings change only by proposals about them", "statement": "Between any two moments of a DAO's history, whatever anybody does and however calls nest, each setting (metadata, registry and factory addresses, version, attestation, voting rules, council rules and members, minimum reward weight, asset and NFT lists of the treasury, unlocking period, hooks, members of a multisig) is as it was, or the actions of a proposal with an action about that very setting were run in between; proposals about other things never change it. If no proposal that was run calls the DAO's contracts by messages of choice, that proposal had passed. This holds from the start in every DAO created by the factory. For the treasury's lists it assumes that the treasury still takes the controller's orders; without that, and for the second part without the condition on messages of choice, it is false.", "quantifier": "all DAOs, all histories of transactions with any nesting of calls, all settings, any two moments", "why_tests_cant": "histories of any length; the settings are spread over six contracts, each with its own check of the caller", "anchors": ["contracts/enterprise-governance-controller/src/contract.rs:execute_proposal_actions,update_gov_config,update_council", "contracts/enterprise/src/contract.rs:update_metadata,update_config,upgrade_dao,set_attestation", "contracts/funds-distributor/src/eligibility.rs:update_minimum_eligible_weight", "contracts/enterprise-treasury/src/contract.rs:update_asset_whitelist,update_nft_whitelist", "packages/membership-common/src/validate.rs:enterprise_governance_controller_only", "packages/multisig-membership-impl/src/execute.rs:update_members,set_members"]}
{"id": "C85", "title": "Members can vote as long as a poll is open, and exactly then", "statement": "After any history of a DAO in which proposals call its contracts by no messages of choice, a vote on a general (council) proposal succeeds exactly when the voter is not restricted, has voting weight (is a council member, and there is a council), and the poll of the proposal is in progress and not past its end; no state the DAO can get into prevents it. It is then recorded with the voter's present weight and the chosen outcome, replacing an earlier vote of theirs; all other votes, polls, proposals, settings, weights, claims, rewards, balances and contracts are as before, except that the poll's count follows and that the time before which the proposal cannot be executed early may be set, never after the poll's end, never in a multisig DAO, for a council proposal or without early execution. For general proposals this needs a tenth of the voting period to fit in the clock; otherwise it is false.", "quantifier": "all DAOs, all histories, all voters, proposals, outcomes, moments", "why_tests_cant": "the conditions are spread over four contracts, and the state they meet is the result of an arbitrary history", "anchors": ["contracts/enterprise-governance-controller/src/contract.rs:cast_vote,cast_council_vote,reply", "packages/poll-engine/src/execute.rs:cast_vote", "contracts/enterprise-governance/src/contract.rs:cast_vote", "packages/membership-common/src/member_weights.rs:get_member_weight", "contracts/enterprise/src/contract.rs:query_is_restricted_user"]}
{"id": "C86", "title": "A vote is decided at its end", "statement": "In every history of a DAO in which proposals call its contracts by no messages of choice, from the end of a vote that is then still open on, whatever anybody does: the recorded votes, what they count, the terms of the poll and the total weight it is judged by do not change any more; votes on general proposals count the weight their voters had at the end. When the poll is ended, at whatever time and by whomever, its outcome is what the voting rule says about these votes and this total; so there is only one possible outcome. If nothing happens in the very second in which the end falls, the total is the whole weight there is at the end, and the votes on a general proposal do not exceed it. Without that this last part is false: weight added in that second before the end counts as votes but not in the total, so that a latecomer can reach a quorum they do not have.", "quantifier": "all DAOs, all histories before and after the end, all proposals of both types", "why_tests_cant": "all possible histories after the end are compared; the total is a query about the past of another contract, in whole seconds, while votes end in nanoseconds", "anchors": ["contracts/enterprise-governance-controller/src/contract.rs:end_proposal,cast_vote,weights_changed,total_available_votes", "packages/poll-engine/src/execute.rs:end_poll,cast_vote", "packages/poll-engine/src/validate.rs", "packages/membership-common/src/total_weight.rs:load_total_weight_at_time"]}
{"id": "C87", "title": "Proposals can be made exactly when they are in order", "statement": "In every history of a DAO anybody can make a proposal, at any time, exactly when they are not restricted, the (at most ten) actions are well-formed for the DAO, the payment goes through, and the deposit reaches the minimum (or, without a minimum, they have weight; for council proposals: they are in the council and it is allowed these actions), and the end of the vote exists and is later than now; nothing else that ever happened to the DAO can prevent it. The proposal then has the next number, an open vote from now until the end of the configured duration with the quorum, threshold and veto threshold in force (the council's own for council proposals), the deposit recorded for its owner, and nothing else changes in any contract. That this is always possible is false: the duration of votes is only checked to be nonzero, and its nanoseconds wrap at 2^64. Members can set a duration (2^55 s) under which every vote would end when it begins; then, once the other proposals are done, nothing can ever be proposed again and the rules stay as they are for good, whatever anybody does. A duration of 18446744074 s gives votes of less than a second.", "quantifier": "all DAOs of all types, all histories, all users, actions, coins, tokens sent and times; for the lock, all continuations", "why_tests_cant": "whether a call can fail depends on every contract of the DAO and on all of its past; the lock is about all futures", "anchors": ["contracts/enterprise-governance-controller/src/contract.rs:create_proposal,create_council_proposal,create_poll,receive_cw20,reply", "contracts/enterprise-governance-controller/src/validate.rs:validate_dao_gov_config,validate_proposal_actions", "packages/poll-engine/src/execute.rs:create_poll", "packages/poll-engine/src/validate.rs:validate_create_poll"]}
{"id": "C88", "title": "Orders come from proposals, code changes only by proposals about it", "statement": "In every history of a DAO, every message that its governance controller sends is either routine (keeping polls, running the actions of a resolved proposal, reporting weights to the distributor, fetching the NFTs of a deposit, the first treasuries on other chains, handing the deposit of a resolved proposal to its owner or the treasury) or exactly one that an action of a proposal means whose actions were run before; and every message the enterprise contract sends follows from what the controller told it before. Hence the code of a contract of the DAO, or who may change that code, leaves the code of this repository only after a proposal about code (an upgrade, or migrations and changes of admin among messages of choice) was run; without messages of choice that call the DAO, that proposal had passed. If the version registry lists this repository's code only and no proposal picks code by itself, upgrades leave the DAO within what the other whole-DAO properties cover. That only upgrades change code is false: messages of choice sent as the enterprise contract can give any contract any code, without the version changing.", "quantifier": "all DAOs of all types, all histories, all messages at all positions of the history", "why_tests_cant": "the claim is about every message of every transaction, with arbitrary contracts outside that call the DAO in the middle of others", "anchors": ["contracts/enterprise-governance-controller/src/contract.rs:execute,execute_proposal_actions,return_proposal_deposit,reply", "contracts/enterprise/src/contract.rs:upgrade_dao,execute_msgs,set_attestation,migrate", "contracts/enterprise-governance/src/migration.rs:migrate"]}
{"id": "C89", "title": "Proposals are carried out in full and in order, or not at all", "statement": "In every history of a DAO, whenever the actions of a proposal were run (and the run was not undone), every message that its actions mean was delivered afterwards, as a message of the controller and in the order of the actions. Apart from messages of the forms the controller also sends by itself (to governance, running actions, weight reports, deployments, plain transfers), the controller has sent exactly what the proposals that were run mean: nothing less, nothing more, nothing twice. It is false that a proposal which passed and was resolved has been carried out: if one of its actions fails, nothing is, and it cannot be tried again.", "quantifier": "every transaction history of every DAO, every behaviour of the world outside, every list of actions, custom messages included", "why_tests_cant": "completeness and exactness over all interleavings of contracts, with rollbacks at any depth", "anchors": ["contracts/enterprise-governance-controller/src/contract.rs:execute_proposal_actions,execute_proposal_actions_submsgs,resolve_ended_proposal,reply"]}
{"id": "C90", "title": "Proposals can be executed exactly when they are ripe", "statement": "In every history of a DAO, at any time, anybody's request to execute a proposal succeeds exactly when: they are not restricted; the proposal exists, has not been executed and is past the time before which it is protected; somebody has weight (after the end of the vote: had weight at the end); the vote has ended, or early ends are allowed (always for the council) and the votes so far reach the quorum of the present weight and one side has reached its share; and the verdict can be carried out. The verdict is then the one of the voting rule for the recorded votes and that weight, and nothing changes but what follows from it: the record, the poll, the actions if it passed, the deposit. It is false that an early verdict is that of people who were members when the proposal was made or stay members until it is executed: a newcomer can decide it alone and leave again within a tenth of the voting period.", "quantifier": "all DAOs, all histories, all callers, proposals and times, before and after the end", "why_tests_cant": "all reachable states and all moments; the conditions are spread over five contracts", "anchors": ["contracts/enterprise-governance-controller/src/contract.rs:execute_proposal,end_proposal,resolve_ended_proposal,reply", "packages/poll-engine/src/execute.rs:end_poll", "packages/poll-engine/src/validate.rs:validate_can_end_early", "packages/poll-engine/src/state.rs:final_status"]}
{"id": "C91", "title": "Members' accounts balance", "statement": "In every history of a DAO with staking, whatever anybody does and however calls nest, for every user: the sum of what was handed in for them at the membership contract (stakes, stakes and claims taken over from old DAOs) is what they have staked now, plus what they are waiting for, plus what the contract has sent them. The same for every single NFT and user. Nothing is lost, nothing counts twice, nothing moves from one user's account to another's.", "quantifier": "all DAOs that stake a token, a native coin or NFTs, all histories of transactions with any nesting of calls, all users and NFTs", "why_tests_cant": "histories of any length, an identity between the contract's state and all messages ever delivered", "anchors": ["packages/token-staking-impl/src/execute.rs:receive_cw20,stake_token,unstake,claim", "packages/denom-staking-impl/src/execute.rs:stake_denom,unstake,claim", "packages/nft-staking-impl/src/execute.rs:receive_nft,stake_nft,unstake,claim", "packages/token-staking-impl/src/claims.rs:add_claim", "packages/nft-staking-impl/src/claims.rs:add_claim"]}
{"id": "C92", "title": "Stakes and rewards are paid only to those who claim them", "statement": "In every history of a DAO, every message that the membership contract (or the council's) has sent is a report of weight changes, or pays what is staked there to somebody who claimed it earlier; every message of the funds distributor pays to somebody rewards of a kind that they themselves claimed earlier; the governance contract has sent nothing. No proposal, not even one with messages of choice, can make these contracts send anything else.", "quantifier": "all DAOs of all types, all histories, all messages at all positions of the history", "why_tests_cant": "the claim is about every message of every transaction, with arbitrary contracts outside that call the DAO in the middle of others", "anchors": ["packages/token-staking-impl/src/execute.rs:claim", "packages/denom-staking-impl/src/execute.rs:claim", "packages/nft-staking-impl/src/execute.rs:claim", "packages/membership-common/src/weight_change_hooks.rs:report_weight_change_submsgs", "contracts/funds-distributor/src/claim.rs:claim_rewards", "contracts/enterprise-governance/src/contract.rs:execute"]}
{"id": "C93", "title": "Rewards are shared among the members by their votes", "statement": "In every history of a DAO whose reward weights started right and were not meddled with: whoever hands over coins or tokens for distribution raises the claimable reward of every member in proportion to the votes that the member has at that moment (nothing below the minimum), up to less than one unit plus the rounding of the index, and changes nothing else in the DAO. Such a distribution is accepted exactly if it is paid, each asset is on the treasury's or the factory's list, some member reaches the minimum and no index outgrows its type. And whatever happens in a DAO, nobody's claimable reward of an asset shrinks but by their own claim of it, or changes at all without a distribution of that asset or such a claim.", "quantifier": "all DAOs of all types, all histories, all members, assets and amounts, all distributions", "why_tests_cant": "the shares depend on weights set by stakes, unstakes and proposals in all earlier transactions, and the list is read page by page from another contract", "anchors": ["contracts/funds-distributor/src/distributing.rs:distribute_native", "contracts/funds-distributor/src/distributing.rs:distribute_cw20", "contracts/funds-distributor/src/distributing.rs:assert_assets_whitelisted", "contracts/funds-distributor/src/user_weights.rs:update_user_weights", "contracts/funds-distributor/src/claim.rs:claim_rewards", "contracts/enterprise-governance-controller/src/contract.rs:weights_changed"]}
{"id": "C94", "title": "The votes that count are the voters' own last word", "statement": "In every history of a DAO none of whose proposals casts votes at the governance contract by a message of choice: the recorded vote of every account on every proposal, general or council, is for exactly what that account itself last told the controller in an accepted call, and there is none if it has told nothing. While a general vote is open, the result for each outcome is the present total weight of those whose last word was this outcome. And when it is over, its outcome is the verdict on those weights as of the end, out of the whole weight. Without the condition a proposal can vote in the name of an account that has never called anybody.", "quantifier": "all DAOs of all types, all histories, all accounts, proposals and outcomes", "why_tests_cant": "votes are recorded, replaced and reweighted by three contracts in arbitrarily many transactions, and the result must be the one sum over last words", "anchors": ["contracts/enterprise-governance-controller/src/contract.rs:cast_vote", "contracts/enterprise-governance-controller/src/contract.rs:cast_council_vote", "contracts/enterprise-governance/src/contract.rs:cast_vote", "packages/poll-engine/src/execute.rs:cast_vote", "contracts/enterprise-governance-controller/src/contract.rs:weights_changed"]}
{"id": "C95", "title": "Every question to the front contract is answered by the facade of the DAO's generation", "statement": "Whatever has been done with the front contract (calls, replies, migrations, failed ones included), the address it keeps for each of the two facades is the last one that an accepted migration gave, or the original; calls by anybody change nothing. Each of its 32 queries, about an address that leads to a DAO (a DAO of the old code; a treasury whose admin is a controller, which names the enterprise contract; an enterprise contract; in this order), is answered with what the facade of that generation answers to the same query, with the same parameters, about that DAO; about other addresses it is an error.", "quantifier": "all sequences of operations on the contract, all queries with all parameters and addresses, all answers of the contracts asked", "why_tests_cant": "32 branches, each of which can name a wrong query, a wrong address or a wrong facade, times all answers of up to four other contracts", "anchors": ["contracts/enterprise-facade/src/contract.rs:query", "contracts/enterprise-facade/src/contract.rs:migrate", "contracts/enterprise-facade/src/facade.rs:get_facade"]}
{"id": "C96", "title": "Anybody who is not restricted can join, and nobody else", "statement": "Whatever has happened to a DAO with staking: a stake (one coin of the DAO's denom, a report of its token contract or of its NFT collection about an NFT that is not staked) for anybody whom the DAO has not restricted, with the payment accepted and the total weight still fitting, is accepted. Afterwards that account has exactly as many more votes and as much reward weight; the votes of others, what anybody voted for, all claimable rewards, all claims and everything else in the DAO are as before. No open or stuck proposal, and nobody's settings, can prevent it. And every accepted stake met these conditions.", "quantifier": "all DAOs that stake a token, a native coin or NFTs, all histories, all callers, payments, beneficiaries and times", "why_tests_cant": "the transaction passes through three contracts and all open polls, in all reachable states", "anchors": ["packages/token-staking-impl/src/execute.rs:receive_cw20,stake_token", "packages/denom-staking-impl/src/execute.rs:stake_denom", "packages/nft-staking-impl/src/execute.rs:receive_nft,stake_nft", "contracts/enterprise-governance-controller/src/contract.rs:weights_changed", "contracts/funds-distributor/src/user_weights.rs:update_user_weights", "packages/poll-engine/src/execute.rs:update_votes"]}
{"id": "C97", "title": "A DAO says to other chains what its votes order, and nothing else", "statement": "In every history of a DAO: every message of the outposts contract to another chain comes right after the accepted call that it answers, and every accepted call is answered at once by exactly what it calls for. An order to deploy makes the global proxy there create a proxy that obeys the outposts contract, or, once that is known, a treasury that obeys the proxy; a report by that global proxy is recorded, and leads to the treasury if it was about the proxy; an order for a treasury is sent, unchanged, to the proxy and treasury known on that chain, over the channel named. What is known on a chain was reported by the global proxy of a deployment ordered by the controller. Every order to a treasury on another chain is one that an action of a proposal means whose actions were run before (and which has passed, if no custom message interferes), and the orders of every proposal whose actions were run have been sent.", "quantifier": "all DAOs, all histories, all chains, channels, proxies and orders", "why_tests_cant": "deployment takes four messages between two chains and the orders pass through three contracts, interleaved with anything else anybody does", "anchors": ["contracts/enterprise-outposts/src/contract.rs:deploy_cross_chain_treasury", "contracts/enterprise-outposts/src/contract.rs:execute_cross_chain_treasury", "contracts/enterprise-outposts/src/contract.rs:execute_msg_reply_callback", "contracts/enterprise-governance-controller/src/contract.rs:execute_treasury_msg"]}
{"id": "C98", "title": "Weights and votes can be recounted from what was delivered", "statement": "In every history of a DAO of any type, without any condition, everybody's weight in the DAO and in its council is what the stakes, withdrawals and member lists delivered so far make it, message by message from the first weights on; the same between any two moments. In a DAO with staking nobody's weight falls by more than they themselves have taken out. The result of an open general vote, and the outcome of one that was decided at its end, are those of a recount from the first weights, the delivered messages and the rules of the poll alone: two histories that agree in these agree in the outcome, whatever else differs inside or outside the DAO, before or after the end. (The parts about votes assume the clock to run forward, fewer than 2^64 messages, and C28's condition on custom messages.)", "quantifier": "all DAOs of all types, all histories, all accounts, all proposals", "why_tests_cant": "an identity between contract state and the whole record of delivered messages, and a non-interference claim about pairs of histories", "anchors": ["packages/membership-common/src/member_weights.rs", "packages/token-staking-impl/src/execute.rs:stake_token,add_stakes,unstake", "packages/denom-staking-impl/src/execute.rs:stake_denom,unstake", "packages/nft-staking-impl/src/execute.rs:stake_nft,unstake", "packages/multisig-membership-impl/src/execute.rs:update_members,set_members", "packages/poll-engine/src/state.rs:final_status"]}
{"id": "C99", "title": "A large enough group of voters decides, whatever the others do", "statement": "In every history of a DAO, for a general vote decided at its end: accounts that say yes and weigh together more than half of all weight, the quorum and the threshold, and leave too little for a veto, have the proposal passed, whatever the others say or do not say; and whatever happens after the end (to their weights, for instance), anybody not restricted can have its actions run. No smaller group can be sure of that. Accounts that weigh the quorum and the veto threshold can veto; accounts without which the threshold is out of reach can have it rejected by no or veto; accounts without which the quorum is out of reach can have it rejected by silence.", "quantifier": "all DAOs, all histories, all groups of accounts, all behaviour of the others", "why_tests_cant": "a guarantee against every behaviour of all other accounts, before and after the end of the vote", "anchors": ["packages/poll-engine/src/state.rs:final_status", "packages/poll-engine/src/execute.rs:end_poll", "contracts/enterprise-governance-controller/src/contract.rs:execute_proposal", "packages/membership-common/src/member_weights.rs"]}
{"id": "C100", "title": "The council stays within its bounds, whatever happens", "statement": "In every history of a DAO: the actions of every proposal of the council are of five kinds (metadata, assets listed, collections listed, upgrades to a listed version, new treasuries on other chains). Where versions are looked up, the text to agree to, the rules of voting, the council and its powers, the minimum weight for rewards, the unstaking period, the hooks and a member list change only by general proposals that are about them; every message of the treasury was ordered by a general proposal whose actions were run, and so was every order to a treasury on another chain that does more than list assets or collections. As long as the only proposals that are run are the council's, all those settings stay as they are and the treasury sends nothing.", "quantifier": "all DAOs, all histories, all councils and all their proposals", "why_tests_cant": "ranges over everything a council could ever propose and everything others do meanwhile, through seven contracts", "anchors": ["contracts/enterprise-governance-controller/src/contract.rs:create_council_proposal", "contracts/enterprise-governance-controller/src/contract.rs:execute_proposal_actions", "contracts/enterprise-governance-controller/src/validate.rs:validate_proposal_actions", "contracts/enterprise-governance-controller/src/validate.rs:validate_dao_council", "contracts/enterprise-treasury/src/contract.rs"]}
{"id": "C101", "title": "Every accepted call came from somebody entitled to it", "statement": "In every history of a DAO, without any condition on what others do, every message that its contracts have ever accepted came from somebody who was entitled to say it at that very point, by one table over all messages of all eight contracts: votes only from accounts with weight (in the membership for general, in the council for council proposals, counted from the messages delivered before), council proposals only from councillors, withdrawals only up to one's own weight, claims only for oneself, stakes only by the DAO's own token, denom or collection, reports of weights only from the two membership contracts, the governance contract, the settings of the membership contracts, of the distributor and of the enterprise contract and orders to outposts only from the controller, the treasury only from the admin last set, migrations only from the enterprise contract. An account that never signs the text that a DAO has and keeps neither proposes, votes, executes, claims rewards nor is given a stake by anybody; where votes come from staking, it never has any. If the text is dropped on the way this ends.", "quantifier": "all DAOs of all types, all histories, all senders, all messages at all positions of the history", "why_tests_cant": "a closed table over every message of eight contracts, judged at every point of every history, with arbitrary contracts outside calling in the middle of transactions", "anchors": ["contracts/enterprise-governance-controller/src/contract.rs:execute", "contracts/enterprise-governance/src/contract.rs:execute", "contracts/enterprise-treasury/src/contract.rs:execute", "contracts/enterprise/src/contract.rs:execute", "contracts/enterprise-outposts/src/contract.rs:execute", "contracts/funds-distributor/src/contract.rs:execute", "packages/token-staking-impl/src/execute.rs", "packages/denom-staking-impl/src/execute.rs", "packages/nft-staking-impl/src/execute.rs", "packages/multisig-membership-impl/src/execute.rs", "packages/membership-common/src/validate.rs", "contracts/enterprise/src/contract.rs:query_is_restricted_user"]}
{"id": "C102", "title": "Settings are exactly what the proposals made them", "statement": "In every history of a DAO, the rules of voting and the council's powers, quorum and threshold are exactly what the actions of all proposals that were run make of the first ones, one after the other: each action changes the fields it names to the values it gives and leaves all others, and a council for which no powers are named may propose upgrades only. So the last action about the council, or the last change of a rule, is what holds. The description of the DAO, its version, its registry and factory, the minimum weight for rewards, the unstaking period, the contracts told of weight changes and what the treasury lists are, without any condition, what the messages delivered to these contracts make of the first values. (What a proposal's actions deliver is C89.)", "quantifier": "all DAOs of all types, all histories, all proposals and actions, every setting of every contract", "why_tests_cant": "an identity between the settings of six contracts and the whole history, for all lists of actions", "anchors": ["contracts/enterprise-governance-controller/src/contract.rs:update_gov_config,update_council,execute_proposal_actions", "contracts/enterprise-governance-controller/src/validate.rs:validate_dao_council", "contracts/enterprise/src/contract.rs:update_metadata,upgrade_dao,update_config", "contracts/funds-distributor/src/eligibility.rs:update_minimum_eligible_weight", "packages/token-staking-impl/src/execute.rs:update_unlocking_period", "packages/membership-common/src/weight_change_hooks.rs", "contracts/enterprise-treasury/src/contract.rs:update_asset_whitelist,update_nft_whitelist"]}
{"id": "C103", "title": "What every vote counts for, in the council too", "statement": "While a proposal is open, general or of the council, the vote of every account counts exactly what can be recounted from the messages delivered so far: the weight of the voter at their last ballot (in the council for council proposals, in the DAO for general ones, itself recounted from deliveries), replaced by whatever weight was reported to the governance contract about this voter since. For the council this says precisely what remains of 'one seat, one vote' after C37: a councillor's vote counts their weight in the council until their stake in the DAO changes, from then on their stake; and changes of the council itself are not reported, so the vote of a councillor who has been replaced goes on counting (shown by a case in which it decides). The tallies are the sums of these numbers; a proposal that is decided after its end is decided by them out of the total weight of the body that votes. If everybody in the council weighs at most one and no weight was reported of those who voted, heads are counted.", "quantifier": "all DAOs of all types, all histories, all voters and proposals of both kinds", "why_tests_cant": "an identity between what the polls record and the whole history of messages through four contracts, for unboundedly many voters and changes of weight", "anchors": ["contracts/enterprise-governance-controller/src/contract.rs:cast_council_vote,cast_vote,weights_changed,update_user_votes", "contracts/enterprise-governance/src/contract.rs:update_votes,cast_vote", "packages/poll-engine/src/execute.rs:cast_vote", "packages/poll-engine/src/state.rs"]}
{"id": "C104", "title": "Decisions about the rules and the description take effect", "statement": "A proposal whose actions change nothing but the description of the DAO and its rules of voting (not the unstaking period) never fails to be carried out once it has passed: its execution ends in exactly the DAO in which the actions have been applied one after the other, and no other change was made, apart from the marks of the execution and the handing over of the deposit; it succeeds if and only if the deposit can be handed over, always if there is none. This holds whatever else was decided between the making and the execution of the proposal: rules that were in order when proposed still are when applied to other rules. Consequently a group of voters of sufficient weight at the end of the vote changes the rules, whatever the others do. It does not hold of the unstaking period: a passed proposal with a new name and a new unstaking period has no effect at all if a longer vote was decided in between.", "quantifier": "all DAOs of all types, all histories, all lists of such actions", "why_tests_cant": "needs the invariant that all stored actions are in order for this type of DAO, and the exact result of a transaction through several contracts, for arbitrary earlier decisions", "anchors": ["contracts/enterprise-governance-controller/src/contract.rs:execute_proposal_actions,update_gov_config,update_metadata,reply", "contracts/enterprise-governance-controller/src/validate.rs:validate_dao_gov_config,apply_gov_config_changes", "contracts/enterprise/src/contract.rs:update_metadata"]}
{"id": "C105", "title": "Decisions about the council take effect", "statement": "As long as nobody but the controller is told of changes of the council (nobody else is, unless a proposal's custom message registered them), a passed proposal about nothing but the council, the description and the rules of voting is carried out completely: in the resulting DAO the councillors are exactly those named by the last such action, with weight one each and their number as the total, the quorum, threshold and powers of the council are the ones given (or there is no council), description and rules are changed as the other actions say, and nothing else has changed but the marks of the execution. The execution succeeds if and only if the deposit can be handed over then. So a group of members of sufficient weight can replace or abolish the council, whatever councillors and other members do. If another contract has been registered to be told of changes and refuses, the council can no longer be changed: the passed proposal is marked as executed and nothing happens.", "quantifier": "all DAOs of all types, all histories, all lists of such actions, all sizes of councils below 2^128", "why_tests_cant": "needs the exact result of a transaction through four contracts with callbacks, for arbitrary earlier histories, and an invariant about who is told", "anchors": ["contracts/enterprise-governance-controller/src/contract.rs:update_council,execute_proposal_actions,weights_changed", "contracts/enterprise-governance-controller/src/validate.rs:validate_dao_council", "packages/multisig-membership-impl/src/execute.rs:set_members", "packages/membership-common/src/weight_change_hooks.rs:report_weight_change_submsgs"]}
{"id": "C106", "title": "Saying yes never hurts a proposal, but saying no may help it", "statement": "Compare any two general votes, in any histories of any DAOs, decided at their ends under the same rules among members of the same weights. If the second differs from the first only in that some say yes who had said something else or nothing, then what passed in the first passes in the second. If there was a quorum in the first, a veto instead of a yes, an abstention or silence never makes a proposal pass, and an abstention instead of silence leaves the outcome exactly as it was. The rest of what one would expect is false, and shown so by pairs of histories: without a quorum a no, or even a veto, makes a proposal pass that silence would have stopped; with a quorum a no makes a vetoed proposal pass, because it takes away from the share of the vetoes; and where less than half is enough for a decision, a veto instead of a no makes a proposal pass that the noes would have stopped.", "quantifier": "all pairs of histories of all DAOs, all rules, all weights, all sets of voters who vote otherwise", "why_tests_cant": "a relation between two unbounded histories, for all rules and all ways of changing votes", "anchors": ["packages/poll-engine/src/state.rs:final_status", "packages/poll-engine/src/execute.rs:end_poll,cast_vote", "contracts/enterprise-governance-controller/src/contract.rs:cast_vote,end_proposal"]}
{"id": "C107", "title": "In a vote only weights count", "statement": "Take any two general votes, in any histories of any DAOs of any type, decided at their ends under the same rules. If the weights of the members of the first are in the second spread over any other accounts, so that everybody's weight is that of the accounts that stand for them taken together, and those accounts say what the member says, then the outcome is the same, with the same count. So nobody gains or loses anything by dividing a stake among several accounts or by pooling stakes, and the outcome does not depend on which account has which weight.", "quantifier": "all pairs of histories of all DAOs, all rules, all divisions of weights among any number of accounts, all renamings", "why_tests_cant": "a relation between two unbounded histories, for all ways of dividing weights", "anchors": ["packages/poll-engine/src/state.rs:final_status", "packages/poll-engine/src/execute.rs:end_poll,cast_vote", "contracts/enterprise-governance-controller/src/contract.rs:cast_vote,end_proposal", "packages/membership-common/src/member_weights.rs"]}
{"id": "C108", "title": "One more vote", "statement": "Take any moment of any history of a DAO at which somebody votes on a general proposal, and compare how the proposal is decided if this vote is the last thing that happens before the end with how it is decided without the vote, whatever happens after the end in either case. A yes never makes it fail. If there was a quorum without the vote, a veto of somebody who had not said no before never makes it pass, and abstaining for the first time changes nothing. Saying once more what one has said already changes nothing.", "quantifier": "all DAOs, all histories, all voters and votes, all continuations", "why_tests_cant": "compares two continuations of every reachable state, through four contracts", "anchors": ["contracts/enterprise-governance-controller/src/contract.rs:cast_vote,end_proposal", "contracts/enterprise-governance/src/contract.rs:cast_vote", "packages/poll-engine/src/execute.rs:cast_vote,end_poll", "packages/poll-engine/src/state.rs:final_status"]}
{"id": "C109", "title": "Decisions about the lists of the treasury take effect", "statement": "As long as the treasury obeys the controller, a passed proposal about nothing but the lists of assets and NFT collections of the treasury of this chain, with no cw1155 asset to add, is carried out completely: in the resulting DAO an asset or a collection is listed exactly if the actions, taken one after the other (additions before removals within one), leave it listed, and nothing else has changed but the marks of the execution. The execution succeeds if and only if the deposit can be handed over then, always if there is none. So a group of members of sufficient weight decides what is listed, whatever the others do. It does not hold with cw1155 assets: a proposal to list one can be made, passes and is marked as executed, but the treasury refuses, and none of its other actions has any effect either.", "quantifier": "all DAOs of all types, all histories, all lists of such actions of any length, all assets and collections", "why_tests_cant": "needs the exact result of a transaction through several contracts for arbitrary earlier histories and arbitrarily many actions", "anchors": ["contracts/enterprise-governance-controller/src/contract.rs:execute_proposal_actions,update_asset_whitelist,update_nft_whitelist,reply", "contracts/enterprise-governance-controller/src/validate.rs:validate_asset_whitelist_changes,validate_nft_whitelist_changes", "contracts/enterprise-treasury/src/contract.rs:update_asset_whitelist,update_nft_whitelist", "contracts/enterprise-treasury/src/asset_whitelist.rs:add_whitelisted_assets_checked,remove_whitelisted_assets"]}
{"id": "C110", "title": "Coins are paid completely or not at all", "statement": "As long as the treasury obeys the controller, a passed proposal that asks for nothing but coins of the treasury of this chain is carried out completely or not at all: if the bank agrees to every payment, one after the other, then exactly these payments are made, in this order and each once, and nothing else of the DAO changes but the marks of the execution; if the bank refuses any of them, none is made. In both cases the proposal counts as executed and the deposit is handed over, and the execution succeeds exactly if it can be. So a group of members of sufficient weight can have coins paid, whatever the others do. That every payment of a passed proposal is made if the bank would make it is false: if one is refused, the others are not made either, and the proposal cannot be executed again.", "quantifier": "all DAOs of all types, all histories, all lists of payments of any length, all banks", "why_tests_cant": "needs the exact result of a transaction through several contracts and an arbitrary bank, for arbitrary earlier histories and arbitrarily many payments", "anchors": ["contracts/enterprise-governance-controller/src/contract.rs:execute_proposal_actions,execute_funding_from_dao,execute_treasury_msg,reply", "contracts/enterprise-treasury/src/contract.rs:spend"]}
{"id": "C111", "title": "Proposals on record are in order", "statement": "Whatever happens to a DAO, every proposal that the controller has on record has at most ten actions, and all of them are in order for a DAO of its type, by the version and the rules it had at one moment, in the sense of C61: for example, no list of the treasury of this chain is asked to gain and lose the same asset or has an asset with an invalid address, and no multisig members are changed in a DAO that is none. It does not matter by which of the four ways the proposal was made (coins, tokens, NFTs, council), nor what callbacks happened in between. Consequently every passed proposal that changes nothing but the lists of the treasury, and adds no cw1155 asset, takes effect as in C109, with no condition on the addresses in it.", "quantifier": "all DAOs of all types, all histories, all proposals on record", "why_tests_cant": "an invariant of the whole system, across all ways of making proposals and the reply that records them", "anchors": ["contracts/enterprise-governance-controller/src/validate.rs:validate_proposal_actions", "contracts/enterprise-governance-controller/src/contract.rs:create_proposal,create_council_proposal,create_poll,reply"]}
