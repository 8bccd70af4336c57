# Formal model of enterprise-contracts: design

Properties are listed in `properties.jsonl` (C01...). This file says what is modelled, how each
property is proved, and what the proofs rest on. It was written before the proofs; the section
"Status" at the end is kept current.

## 1. What the model is

The code under study is a set of CosmWasm contracts written in Rust. Nothing is compiled or run. The
source is read as text, and each contract is re-expressed, function by function, as total computable
Gallina functions. Every definition cites the file and lines it models and names its simplifications.

Conventions used everywhere:

* **Handlers.** `execute(deps, env, info, msg) -> Result<Response>` becomes
  `exec : state -> env -> sender -> funds -> msg -> res (state * list submsg)`.
  An `Err` or a panic reverts the storage of the failing call. Both are `Err e`; a panic is `Err EPanic`.
* **Arithmetic.** The workspace sets `overflow-checks = false`, so native `u64`/`u128` operators wrap:
  the model writes `mod 2^64` / `mod 2^128`. `Uint128`/`Uint64` operators (cosmwasm-std 1.5.0) panic on
  overflow/underflow: the model returns `Err EPanic`. `checked_*` returns `Err EOverflow`.
  `Decimal` is its 18-digit atomics as `N`; ratio and multiplication round down.
* **Time.** Block time in nanoseconds and height are `u64`. `Timestamp::plus_seconds s` multiplies
  `s * 10^9` natively (wraps) and adds with a panic on overflow. The second half is our reading of
  cosmwasm-std 1.5.0 from memory (the dependency is not available here): see Trusted base.
* **Storage.** `cw_storage_plus::Map` is `omap`: a list of key/value pairs, strictly sorted by key, with
  the sortedness carried by the type. So iteration order, `Bound::exclusive`, `take(limit)` are modelled
  directly. `IndexedMap` secondary indices are modelled by filtering the primary map.
  `SnapshotItem` is modelled with its changelog (the same algorithm as cw-storage-plus 1.1.0).
* **Addresses and strings** are `N`. `addr_validate` accepts every address but `0`, which stands for all
  malformed strings. Free-text fields that no logic reads (titles, descriptions, labels) are dropped.
  Numeric order stands for byte order of keys; it matters only for iteration order.
* **Queries to other contracts** are arguments of the handler (records of functions); in the composed
  model (`World`) they are the actual query functions of the other contracts' models.
* **Messages between contracts** are values. The composed model runs them depth first, in order, with
  CosmWasm's reply rules (`reply_on_success`, `reply_always`) and with rollback of a failed sub-message,
  by recursion on a fuel that stands for gas. Running out of fuel aborts the whole transaction.

Files (`rocq/theories/`):

| file | models |
|---|---|
| `Base`, `OMap` | results, machine arithmetic, decimals, ordered maps |
| `PollModel` | packages/poll-engine, contracts/enterprise-governance |
| `FundsModel` | contracts/funds-distributor |
| `MemberModel` | packages/membership-common; token-, denom-, nft-staking-impl, multisig-membership-impl |
| `Assets`, `Msgs` | asset identifiers; the messages the contracts exchange |
| `ControllerModel` | contracts/enterprise-governance-controller |
| `TreasuryModel` | contracts/enterprise-treasury (proofs in `TreasuryProofs`, `MigrationProofs`) |
| `EnterpriseModel` | contracts/enterprise, enterprise-versioning, attestation |
| `FactoryModel` | contracts/enterprise-factory |
| `OutpostsModel` | contracts/enterprise-outposts, ics721-callback-proxy |
| `WorldModel` | one deployed DAO: all of the above composed; the outside (bank, tokens, other contracts) is an arbitrary state machine |
| `LedgerSpec` | what it means for the outside to keep an honest ledger of what a contract holds |
| `CreationModel` | the instantiations a factory transaction orders, run by the contracts created |
| `FacadeModel` | contracts/enterprise-facade, enterprise-facade-v2 |
| `FrontModel` | contracts/enterprise-facade: its own state, its entry points and each of its 32 queries |
| `FacadeV1Model` | contracts/enterprise-facade-v1 (the DAOs of the old code behind it are arbitrary records of answers) |
| `RewardSpec` | agreement of reward weights and voting weights |
| `PurseSpec` | what proposals order the treasury to send, and what it has sent |
| `RuleSpec` | the settings of a DAO, and which actions are about which of them |
| `VoteSpec` | who can vote when, and what a vote changes |
| `ProposeSpec` | who can make a proposal when, what it then is; DAOs that are stuck |
| `OrderSpec` | what the controller and the enterprise contract are told to send; registries of this repository's code |
| `DoneSpec` | the messages that actions mean, in order; what the controller sends by itself |
| `RipeSpec` | when a proposal can be executed, before the end of its vote or after |
| `ShareSpec` | distributions, the votes they are shared by, what touches a reward |
| `JoinSpec` | what a stake is, when it may be made and what it changes |
| `AbroadSpec` | what is said to other chains, on what occasion; reports from there |
| `BallotSpec` | the last word of an account on a proposal, and what its supporters weigh |
| `RecountSpec` | weights and votes as the delivered messages make them |
| `MajoritySpec` | groups of voters: enough to pass, to veto, to block |
| `BoundsSpec` | what lies beyond the council |
| `AccessSpec` | who may tell the contracts of a DAO what |
| `SettingSpec` | settings recounted from proposals run and messages delivered |
| `SeatSpec` | what each vote counts for, recounted from messages |
| `EnactSpec` | decisions about rules and description, and the DAO in which they have taken effect |
| `ShelfSpec` | decisions about the lists of the treasury, and the DAO in which they have taken effect |
| `GrantSpec` | decisions to pay coins, the payments one after the other, and what is on record of them |
| `MadeSpec` | proposals on record that are in order |
| `SpreadSpec` | two votes in which weights are spread over other accounts |
| `SwaySpec` | two votes that differ in what some say |
| `DismissSpec` | decisions about the council, and the DAO in which they have taken effect |
| `PassSpec` | what is handed in for members and given back to them; who is sent what |
| `EndSpec` | the votes at the end of a poll, and the total they are judged by |
| `ExitSpec` | ledgers that pay out; the messages by which members leave |
| `LiftSpec`, `LiveSpec` | the calls a contract received during a history; resolution of proposals |
| `*Spec` | independent specifications used by the property statements |
| `*Proofs`, `*Facts` | lemmas |
| `*Examples`, `*Cases` | concrete states, witnesses and refutations |
| `Prop*` | only property theorems, each closed by `exact`, with examples and `Print Assumptions` |

## 2. Plan per property

* **C01-C03, C05, C06, C10** (governance histories): `step` over governance messages; invariant
  "tally o = sum over stored votes with outcome o (mod 2^128)", proved by induction over message lists;
  corollary without wrap under a bound on the recorded amounts. C02, C03, C10 are step theorems with full frame
  conditions, quantified over every reachable (or every) state.
* **C04**: a separate specification of the voting rule in exact integer inequalities
  (`count * 10^18 >= threshold * den`-style), equivalence with the code for all inputs.
* **C07**: case analysis, plus invariant on the admin over all histories.
* **C08**: step theorem; the "could not be overturned" reading is refuted by a computed witness.
* **C09**: equality of the query and the recorded status for all states.
* **C55, C56**: C55 equates the poll listing with the filtered, sorted store for all pages; C56 (a recorded
  verdict is final) is refuted by a witness history.
* **C11-C17** (distributor): invariant in exact integer arithmetic over histories:
  `10^18*(paid + pending) + sum_u w_u*(global - index_u) <= 10^18 * distributed` per asset, together with
  `index_u <= global`, effective-weight invariants and their sum. C12: two-sided bound. C13/C14/C16: a
  `claimable` specification function; step theorems say which messages change it and by how much.
* **C53, C54**: success conditions of weight updates and distributions from the same invariant; C54's exact
  limit of the decimal index, with a witness.
* **C18, C43**: the paged reading loop is modelled with the treasury's paging query; proved equal to
  membership in the full whitelist for all lists; fuel is shown sufficient.
* **C19, C21, C24**: invariants over histories of each membership contract. **C20**: refinement of the
  snapshot structure to an abstract history `time -> value`.
* **C57**: invariant counting the stakes of a user.
* **C22, C23, C25, C26**: step theorems with frames. Wrap of the release point and the unreported
  removal are refutations with witnesses.
* **C27-C36, C40, C52, C58-C62**: controller step theorems and invariants, lifted to the composed model where the
  property speaks about whole transactions.
* **C37, C38, C39, C52**: composed model. C38 by an invariant over transactions of the whole DAO;
  C37, C39, C52 are refuted by computed transaction histories.
* **C41, C46, C47, C50, C51, C64**: small state machines, invariants and step theorems.
* **C42**: step theorems.
* **C44**: the migration step is modelled with its loops; theorem over iterated steps.
  **C63**: invariant "unmoved + moved weight" over all histories.
* **C45**: paged reading equal to filtering the registry; refutation for non-existing targets.
* **C48, C49**: the factory's reply machine run to completion on any request; C48 refuted by a witness
  for staking DAOs with a council and proved for the rest.
* **C66-C68**: invariant over the composed model, relative to an honest ledger outside.
* **C69**: the effects of the factory's transaction are run by the created contracts, giving an initial state of
  the composed model.
* **C70**: the run of the composed model is projected to each contract; the calls are read off the log.
* **C39, C20, C34** for whole histories (`Live*`): `WorldInduct` gives an induction principle over all turns of all
  contracts in a history; with it, a proposal without weight at its end is an invariant.
* **C71-C75**: queries and adapters of the facade as functions of the composed model's state; equivalences with
  independent specifications in every history, using the invariants on the wiring of a DAO.
* **C76, C77**: the facade for DAOs of the old code, for arbitrary answers of such a DAO.
* **C78**: reading page by page is an iteration of the query; its result is the whole listing, for every state.
* **C79**: as C66-C68, for the controller; the induction keeps what is still to be delivered within one transaction.
* **C80**: reward weights against voting weights, for every history; the membership contract's report, the controller's
  notice and the distributor's update are followed as one step of the induction.
* **C81, C82**: liveness of leaving: the invariants of C27, C38, C66-C68 and C80 rule out every refusal on the way of the messages.
* **C83**: what the treasury sent is a permutation of what the proposals that were run ordered: kept as an invariant of the message interpreter that also counts the orders still on their way.
* **C84**: settings change only by proposals about them: induction over the message interpreter for each setting, from one lemma per contract saying which messages, from whom, change what.
* **C85**: members can vote as long as a poll is open, and exactly then: the two directions by computing the transaction from the invariants of the run.
* **C86**: a vote is decided at its end: an invariant of all continuations, by an induction principle for calm histories (`WorldCalm.v`) in which the governance contract is only called in turns of the controller.
* **C87**: proposals can be made exactly when they are in order: the transaction is computed in a DAO with any past (the wiring and the sanity of the rules are invariants). That a DAO whose votes would end at once is stuck for good is an induction over everything delivered (`ProposeLock.v`).
* **C88**: orders come from proposals: inductions over everything delivered, with the position in the log (what was sent before), separately for the controller and for the enterprise contract, and for upgrades to this repository's code.
* **C89**: proposals carried out in full: one induction over everything delivered that tracks the new part of the log, in which every run is followed in order by what its actions mean, together with a balance of what was sent, what is due and what is still to be sent.
* **C90**: exact conditions of execution at any time: the controller's and the governance contract's parts are each turned into an equivalence, and put together along the one run of the transaction.
* **C91**: members' accounts balance: one induction over everything delivered (`PassProofs.v`) for any contract whose calls keep a balance and whose messages are not undone; one lemma per membership contract about the account of one user.
* **C92**: who is sent what: one induction over everything delivered, with the position in the log (`SentProofs.v`), for contracts that get no replies.
* **C93**: C80 (weights are current) put under the contract's C12 and C18, and the distributor's calls of a part of a history replayed (`ShareFacts.v`).
* **C94**: one induction over everything delivered: recorded choices are last words (`BallotProofs.v`); the sums then follow from C28 and C86.
* **C95**: case analysis of the front contract (one branch per query), and an induction over what is done with it.
* **C96**: the transaction is computed in a DAO with any past, as for C81: the membership contract's part by cases, the reports from the invariants of polls and reward weights.
* **C97**: one induction over everything delivered: the log is a sequence of calls to the outposts contract with their answers next to them, and of other messages (`AbroadProofs.v`); then C88 and C89.
* **C98**: each accepted call changes weights as its text says (`call_weighs`), lifted over histories with `LiftProofs.run_passes`; C94 gives the votes, functionality of the verdict the rest.
* **C99**: C94 gives the votes counted; each account is in the supporters of one outcome only, so a group's weight bounds the counts; cross-multiplied shares give the verdict; C39 and C86 the execution.
* **C100**: the controller's history (C70) gives the kinds of council actions (C35); none of these concerns the settings of C84, orders the treasury (C83), or is a custom message.
* **C101**: an invariant over everything that is delivered: the wiring, the kind of the membership contracts, the treasury's admin and the recounted weights (C98), with each new message checked against the table.
* **C102**: two inductions: one over turns of the controller (actions of proposals stay what they are, so the rules can be recounted from the final records), one over everything delivered for the other contracts.
* **C103**: an invariant over turns: for every open poll the recorded amounts are the recount; the reports of weights and the ballots are the only turns that touch it, and the type of a proposal fixes which ballots it can have.
* **C104**: an invariant over histories (the rules and all stored actions are in order for the type of the DAO; an update in order keeps any rules in order), the exact run of such actions in the controller, delivery of the messages by induction, and C90/C99 for the rest.
* **C105**: the same for actions about the council: setting the members cannot fail for a list that was accepted, the only call that follows goes to the controller, which accepts it.
* **C106**: the outcome is the rule applied to what can be counted (C94, C99); compare the sums over those who said yes, no and veto in the two histories, and the shares by multiplying out.
* **C107**: as C106; exchange the sums over members and over the accounts that stand for them.
* **C108**: C85 gives the log after the vote; then C106 and C107.
* **C109**: as C104, delivering the messages to the treasury one by one with C43; the admin of the treasury by induction over histories.
* **C110**: as C109, with every payment offered to an arbitrary bank; the failing case from the reply that catches errors.
* **C111**: invariant of the controller (proposal being created and proposals on record) by induction over histories.

## 3. Trusted base

* Coq 8.16.1's kernel (and `vm_compute` for the witnesses). No axioms are used: `Print Assumptions`
  beneath each property theorem says "Closed under the global context" unless stated in "Status".
* The reading of the Rust code. Each definition cites its source.
* Reading of dependencies not present here: cosmwasm-std 1.5.0 (`Uint128`, `Decimal`, `Timestamp`,
  sub-message semantics), cw-storage-plus (`Map`, `IndexedMap`, `SnapshotItem`), cw-asset, cw-utils
  (`Duration`, `Expiration`, `parse_reply_*`), cw20/cw721 token contracts (assumed to be standard).

Not modelled: JSON (de)serialisation, gas cost, events and attributes, migration of
a contract to code other than this repository's (migrations to its own code are followed in `WorldModel.v`, except that of
the governance contract, whose `migrate` replaces its admin), IBC transport, bech32/sha256 (an injective-or-not arbitrary function
parameter), the code of old DAOs (v0.5.0, not in the repository), schema generation and test code. Also not
modelled, because nothing calls them: `packages/nft-staking-impl/src/migrate.rs`, and `packages/poll-engine/src/helpers.rs` (polls for tests).

`coqchk -o` over the whole development also lists seven axioms of `Coq.ssr.ssrunder` and the like, loaded by
standard-library files that are imported; no theorem here depends on them (see each `Print Assumptions`).

## 4. Status

Statuses and theorem names per property are in `MANIFEST.json`. In short:

* Done at the level of the single contract: governance and poll engine (C01-C10, C55, C56), funds distributor
  (C11-C18, C53, C54), membership contracts (C19-C26, C57), governance controller (C27-C35, C39, C40, C52,
  C58-C62), treasury and legacy migration (C42-C44, C63), enterprise (root), versioning and attestation contracts
  (C41, C45-C47, C64), outposts and bridge callback proxy (C50, C51), factory (C48, C49, C65), facade for DAOs of the
  old code (C76, C77), the front of both facades (C95).
* No theorem is named `_partial` at present: each property is proved or decided (false as stated, with what holds
  proved instead). Theorems ending in `_refuted` show that the property (or an unrestricted version of it)
  is false of the code.
* Done for a whole DAO, with all contracts running together (`WorldModel.v`): C20, C27-C29, C34, C36-C39, C52, C70, and
  what the facade answers and adapts (C71-C75), that its listings are complete (C78), and that reward weights
  follow voting weights (C80) and that members can always leave (C81), that the treasury sends exactly what proposals ordered (C83), that settings change only by proposals about them (C84), that members can vote exactly while a poll is open (C85), that a vote is decided at its end (C86), that proposals can be made exactly when they are in order (C87), that all orders come from proposals (C88), that proposals are carried out in full or not at all (C89), that they can be executed exactly when they are ripe (C90), that members' accounts balance (C91), that stakes and rewards are paid only to those who claim them (C92), that rewards are shared by current votes (C93), that the votes that count are the voters' own last word (C94), that anybody can join (C96), that other chains are told what votes order (C97), that weights and votes can be recounted from the delivered messages (C98), what groups of voters can bring about whatever the others do (C99), that the council stays within its bounds (C100), and that every accepted call came from somebody entitled to it (C101), that settings are exactly what the proposals made them (C102), what every vote counts for, in the council too (C103), that decisions about rules and description take effect (C104), and so do those about the council (C105), what it does to the outcome that somebody votes otherwise (C106), that only weights count (C107), what one more vote does (C108), that decisions about the lists of the treasury take effect (C109), that coins are paid completely or not at all (C110), and that proposals on record are in order (C111). Everything
  outside the DAO is an arbitrary state machine that may call the contracts of the DAO at any time. The theorems on
  C28, C29 and C38 assume that no proposal that was run used custom messages (`ExecuteMsgs`) to make the controller call
  itself, the governance contract or the membership contract (C29: nor to pay; C80 only excludes setting member list, hooks or reward weights); without this they are refuted by histories.
  All of them assume that no contract has been migrated to code other than this repository's (nor the governance contract at all), or given another migration admin, and that fewer than 2^64 messages have been
  delivered (`lasting`).
* Done for a whole DAO on a chain with honest ledgers (`LedgerSpec.v`): C82, and C66-C68 and C79, what the membership contract,
  the funds distributor and the controller hold covers what they owe. `honest_ledger` is an assumption about the bank, token and NFT contracts
  outside; it consists of inequalities only (nothing leaves a contract except by its own transfers, nothing is
  notified before it has arrived), so that gifts and any other movement are allowed. `LedgerExamples.v` has a concrete
  chain and proves it honest.
* The whole-DAO theorems start from a DAO that is new (`new_dao`). C69 proves that the DAOs created by the factory are.
* In `seeded/LOG.jsonl` eight controller theorems appear under the names they were given after the log was written (the
  suffix `_partial` was dropped once the whole-DAO theorems were proved; C39_contracts_resolve was C39_resolvable_partial).
* Log entries with a field `checked_for` were obtained without a full rebuild: the files after the edited one were
  compiled, lemmas whose proofs no longer go through were noted and set aside, and a theorem is listed as failed when
  its proof rests on such a lemma (`Print Opaque Dependencies`). The check stops once the properties in `checked_for`
  have failed, so that these lists may be incomplete. In all entries "failed" means that the proof as written no longer
  compiles; that the statement itself has become false was not shown separately.
