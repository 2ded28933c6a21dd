# Formal model of virto-node in Coq: design

Properties are listed in `properties.jsonl`; what is proved about each is in `MANIFEST.json`.
The Coq development lives in `rocq/theories` (logical name `Verif`).

## Layout

| kind | files | content |
|---|---|---|
| model | `*Model.v` | total, computable Gallina functions, one per Rust function, each citing `/repo` file and lines |
| specification | `*Spec.v` | small definitions used only to state properties (sums owed, prefix relation, who may act ...), not used by the model |
| proofs | `*Proofs.v` | lemmas and invariants |
| property theorems | `Props*.v` | one theorem per claim, closed by `exact`, with `Print Assumptions` and `Example`s showing the hypotheses are met |

Naming: a theorem `X` is the full claim, `X_partial` a weaker one (with what is missing said beside it),
`X_refuted` an existence proof that the code as modelled violates the claim (the witness is the finding).

## Modelling conventions

* Numbers are `N`. Width, wrap-around and saturation are written out where Rust has them (`wrap 32`, `sat 128`).
  `Cargo.toml` does not enable `overflow-checks` for release profiles, so plain `*` and `+` on `u32` wrap
  in the shipped runtime (they would panic in a debug build); theorems about these say so.
* A dispatchable is a function `state -> option state` (or `result`), where an error means the FRAME transactional
  layer rolled everything back: the state after an error is the state before.
* Panics are an explicit value (`Panic`), never a default.
* Storage maps are std++ `gmap`s. Hashers are dropped (keys are compared by value).
* External pallets are abstracted as follows, and theorems quantify over the abstraction:
  - *fungibles / fungible ledger*: free and held balance per (asset, account). `hold`, `release`,
    `transfer`, `transfer_and_hold` move exactly the amount when they succeed, need sufficient balance,
    and may in addition be refused by an arbitrary oracle (frozen account, existential deposit, hold limit, ...).
    An expendable transfer may burn a remainder below the asset's minimum balance.
  - *scheduler*: a map from task name to (due block, call). A task can only run at or after its due block; it can be
    run late or not at all; running it removes the name.
  - *referenda (Polls)*: map poll -> ongoing (tally, class) or finished; anything may end or create polls.
  - *memberships (pallet_nfts through fc-traits-memberships)*: map from membership to (community, owner, rank).
* Environment steps (other pallets moving free balances, blocks passing, polls starting and ending, memberships being
  traded) are explicit steps of the transition systems, so invariants hold under interference.

## Plan per property

Payment id codec (C01-C06): `PaymentIdModel.v` models the 8-byte layout, little endian packing, SCALE, and the real
bs58 algorithm (carry loops over digit vectors, leading zero handling, output buffer limits). Proof: the carry loops
compute positional value (induction), hence decode after encode is the identity; length bound from value bound
58^11 > 2^64. C04 is expected to be refuted (slice of a 12 byte buffer), C05 too (short strings are zero padded).
C06: injectivity from the layout under index < 65536; refuted beyond (truncating cast).

Asset ids (C07-C10): `AssetLocationModel.v` models `Location` (parents, junction list), the two conversions and the derived codec.
Proof by case analysis on shape plus range conditions. C09 refuted (`expect`).

Accounts and lookup (C11-C14): `AccountsModel.v` models accounts as 32 byte strings, `into_sub_account_truncating`,
`try_from_sub_account`, lookup and both XCM conversions. Injectivity of byte layouts. C12 refuted (pallet id ignored), C14 refuted beyond 16 bits.

Payments (C15-C33): `LedgerModel.v`, `PaymentsModel.v` model each dispatchable and helper with the ledger oracle. `PaymentsSpec.v`
defines what an open payment owes and from whom. Conservation: per ledger operation, then per call. Escrow: invariant
`held >= sum owed` by induction over histories, with `held - owed` monotone, so stranded funds are stranded for good.
Exact balance equations for cancel / release / resolve / accept. `FeesModel.v` models `get_summary` as sorted map merging and the Kreivo fee handler.
Expected refutations: C17, C19, C20 (`accept_and_pay` does not check the state), C25, C30 for mixed flags.

Communities (C34-C49): `CommunitiesModel.v` models registry, origins, membership administration, voting, tallies and locks.
`CommunitiesSpec.v` defines the weighted sum of recorded votes and the required freeze. Invariants over histories.
Expected refutations: C35 and C38 (`set_admin_origin` overwrites, `set_decision_method` ignores who asked), C37 (account route), C41 (multiplier
re-read at removal), C45 (locks keyed by account and poll), C47 (32 bit sum wraps), parts of C48.

Manager (C50, C51): `ManagerModel.v` with failure oracles for each sub-step.

Runtime policy (C52-C60, C73-C80): `ProxyModel.v` (call filters of the proxy types, batching and detours, privilege comparison, calls of contracts),
`TracksModel.v` (threshold curves, tracks), `RuntimeModel.v` (fee polynomial, deposits, challenger, passes, contracts, collators), `XcmConfigModel.v`
(reserve filters, barrier, origin converters, prefix matching). Expected refutations: C52 (NonTransfer allows value-moving pallets),
C57 (asset origin ignored for one filter), C59 (Member loses its meaning, AtLeastRank rejected), C60 (future blocks hash to zero).

Execution of messages (C81-C89, C92-C101): `XcmExecModel.v` is an interpreter of XCM programs with the executor's registers (holding, fees, appendix, error
handler, transact status) over a chain of balances, traps, dispatched calls and sent messages. Proofs are invariants of single steps, lifted to whole
runs, messages and histories. `XcmWeightsModel.v` weighs programs as the configured weigher does; a potential argument bounds what one message can do.
`XcmTraderModel.v` models what weight costs and what is refunded; that refunds follow use (C101) is an account kept along the run: weight unused so far, used,
and waiting in the three programs always adds up to what the message was found to need.

Weights and fees (C102-C108): `CostModel.v` (weights the calls of the communities pallet declare and what they read), `TxFeesModel.v` (the transaction
fee and both ways to pay it around an arbitrary call), `QueryModel.v` (balances told by the runtime API). C102 and part of C103 are refuted.

Ends of payments and events (C109-C115): `PaymentsEnds.v` (when a decision can be carried out, what becomes of a refund, what stays in storage) needs no new
model; `PaymentsEventsModel.v` adds the events of the payments pallet, those of the communities pallet are part of `CommunitiesModel.v`. A reader's view of
the event log (`told`, `votes_told`) is specified separately and compared with the state over whole histories. Refutations: C109, C110, C111 (as the doc
comment in types.rs has it), C113 with repeated ids, C114, C115 (remove_member and demote).

Governance as a whole (C116-C124, C134): `GovernanceModel.v` puts both instances of referenda, the ranked collective, the scheduler and dispatch of nested calls
(`batch_all`, `dispatch_as`, calls as a community, scheduled calls) into one transition system. `GovernanceSpec.v` says which call comes to be dispatched with which
origin in a step (`happens`), and what of an earlier history stands behind it (`was_submitted`, `was_approved`, `confirmed`, `has_voted`). Proofs: induction over
the calls dispatched within a step (`step_induct`), then over histories. C117 refuted (nobody ranked, as in the genesis of the repository, is for ever), C120 refuted
(track settings that want no approval), C121 refuted where more than 65537 members vote (`GovernanceCount.v`: 32 bit counters wrap around), C124 refuted (one member suffices).

Transactions, blocks and queues (C125-C133): `TransactionsModel.v` (the signed extensions around a chain of blocks, accounts that come and go, upgrades),
`BlocksModel.v` (limits of a block and the check of weights, over any sequence of hooks and transactions), `QueueModel.v` (messages of sibling chains from delivery to
execution). Refutations: C125 (reaped accounts and feeless calls), C128, C130 (limits of the hooks add up to more than a block), C129 (proof), C131 (64 KiB), C133 (heavy messages).
Progress of the queue is a decreasing measure: messages before it times chains, plus the place of its chain in the ring.

Time and demand (C135, C136): `TimeModel.v` (which blocks may follow one another: slots, timestamps, blocks not yet included), `FeeMultiplierModel.v` (the fee
multiplier in fixed point arithmetic). C135 refuted ("2 days" are 14400 blocks of six seconds; two blocks per slot). Bounds over many blocks are by induction, powers of
the rate by way of rounded ones.

Sending to other chains (C137-C141): `XcmSendModel.v` (the calls of pallet_xcm with Kreivo's filters and reserves, the programs they execute here and the messages they send),
on top of `XcmExecModel.v`. `XcmSendSpec.v` gives locations a meaning as paths from the root of all chains, so that amounts here and amounts in messages can be compared.
C138 refuted (the asset hub's assets count as reserved at any destination), C141 refuted (more than twenty kinds trapped together).

Collators (C142-C149): `CollatorsModel.v` follows the collator selection pallet, sessions and the change of authorities through calls and blocks (one session is 3600 blocks).
`CollatorsSpec.v` says what a right choice of collators is, what bonds are and why candidates stop. One invariant over histories ties reserved money to bonds; a second says
that the queue and the set of authorities are never empty. Expected refutations: C144 (names twice), C147 (nobody left by governance), C148 (kicked before the first turn).

Writes (C151, C152): `WritesModel.v` lists the reads and writes counted in the weights of payments, communities and manager; `WritesSpec.v` lists the things kept in
storage and how many entries each has, so that "what differs after the call" can be counted. Proofs: everything a call changes lies in a list of things. C152 refuted
(votes with tokens, registration for a deposit). `CallsFitSpec.v` puts the declared weights beside the limits of blocks (BlocksModel.v) and of the scheduler (C157).

The scheduler (C153 to C156): `SchedulerModel.v` is pallet_scheduler (a dependency, so modelled from knowledge of it) with Kreivo's numbers: agendas of at most fifty
tasks, names, the walk over agendas with a weight meter, tasks that are carried out, wait or are left. Retries and periodic tasks are left out; weights of calls
and of the scheduler's own work, and what tasks do to the scheduler, are arbitrary. `SchedulerRefunds.v` puts it behind `request_refund` (PaymentsModel.v, whose
`env_sched_ok` is then what this scheduler answers) and behind the admission of transactions (BlocksModel.v). `Decisions.v` (C158) puts it behind the
approval of referenda (GovernanceModel.v, `ge_sched_ok`); that decisions are named by the number of the referendum alone is knowledge of pallet_referenda.

Names (C159, C160): `Names.v` follows, over the histories of GovernanceModel.v, every call that runs with a signed origin back to the transaction, the remote call, the
manager of a community or the decision it comes from, and puts the treasury's account to it; what messages do to its balance comes from XcmExecModel.v. pallet_treasury,
from which nobody may spend, is not modelled.

Referenda of the collective in time (C161): `EndInTime.v`, over the same histories. The scheduler's look at a referendum is the step GService, taken or not; that it is
taken in every block in which a period ends is the theorems' hypothesis, spelled out in `EndInTimeSpec.v`. Whether a slot is free on the track is an oracle (ge_slot).

Logging in with passes (C162): `LoginModel.v`: the challenge of system_support.rs (as in RuntimeModel.v) with devices, hashes of past blocks and attempts to log in as histories.
Of pallet_pass only that its authenticate call makes the signer a session key of the user whose device signed; whether a signature is the device's is an oracle.

Membership ids that repeat (C163): `SharedIdsModel.v`. `CommunitiesModel.v` takes membership ids as unique across communities; here memberships are keyed by community and id,
and `check_membership`, which the pallet calls without a community, finds the first community in an arbitrary order of storage. `SharedIdsTwin.v` shows that every history of this
model is, under ids that say the community, one of `CommunitiesModel.v`.

Votes of former members (C164): `FormerMembers.v`, over the model of `CommunitiesModel.v`. A removal takes the membership and its rank and leaves votes, tallies, locks and freezes as they are.

Memberships as items (C165, C166): `MarketModel.v`. Over the manager of `ManagerModel.v`: minting, pricing, buying, transferring and burning items and handing over collections, as pallet_nfts (dependency, from memory) does
with the default settings the repository gives collections and items, signed or dispatched as a community's account, and root creating collections. Not modelled: offers to one buyer, approvals, swaps, tips, pre-signed
mints, and the link between items and the memberships of `CommunitiesModel.v` (the memberships trait is a dependency).

Deposits of referenda (C167): `DepositsModel.v`. `submit`, `place_decision_deposit`, `cancel`, `kill` and the two refunds of pallet_referenda (dependency, from memory) on free and reserved balances, with the deposits the two instances and the table of tracks ask for. What dispatches these calls and when a referendum ends is left open: any sequence of them is a history. Other pallets may reserve and give back what they reserved; reserving is refused if the free balance does not suffice or, as an oracle, for locks and the existential deposit. The deposit of metadata and of preimages is not modelled. Words in `DepositsSpec.v`.

Administrators (C168): `Admins.v`, over `GovernanceModel.v`. What each call, nested or not, does to the record of who administers which community. Words in `AdminsSpec.v`.

Chain specifications (C169): `GeneratorModel.v`. What `main` of the generator does with its arguments; arguments are parsed by clap and specifications are read, built and written by sc_chain_spec, both dependencies. What a local chain starts with is `kgenesis` in `CollatorsModel.v`. The file that `live` embeds without the feature `paseo`, kreivo_kusama_chainspec.json, is not in the repository.

Delayed proxies (C170, C171): `DelayedModel.v`, with the filters of `ProxyModel.v`. The proxies of accounts with their delays, announcements, and the calls of pallet_proxy (dependency, from memory) and batches nested in them; pure proxies are left out, deposits are an oracle. Every run also yields a record of what happened, of which the theorems speak; words in `DelayedSpec.v`. The hash of calls is any function: theorems speak of calls with the same hash.

Accounts of groups (C172, C173): `MultiModel.v`. The calls of pallet_multisig (dependency, from memory), nested in each other and in batches, on the operations that are open; deposits with their amounts, but whether they can be made is an oracle. The account of a group is any function of the sorted signatories and the number that has to agree; theorems that need it say that it is injective. As for delayed proxies, a run yields a record of what happened. Words in `MultiSpec.v`.

Accounts without keys and the cost of proxies (C174 to C176): `PureModel.v`, with the filters of `ProxyModel.v`. All calls of pallet_proxy with their deposits (dependency, from memory), nested in batches; free and reserved tokens, the latter not told apart by purpose, as in pallet_balances; whether an account may reserve, and calls of other pallets, are oracles. What other pallets reserve and release is a step of the history.

Vesting (C177 to C179): `VestingModel.v`. The calls of pallet_vesting (dependency, from memory) with the bounds Kreivo sets, on what accounts have free, reserved or on hold and locked. Transfers and fees leave what is locked, holds do not have to; the existential deposit is an oracle, slashing of reserves is left out, and numbers do not overflow.

Preimages (C180 to C182): `PreimageModel.v`. The calls of pallet_preimage (dependency, from memory) with the deposits Kreivo sets, on what accounts have free and on hold for texts. The hash is a function without collisions; whether a hold is allowed for reasons other than too little being free is an oracle, the upgrade of statuses of earlier versions is left out, and numbers do not overflow.

Tokens of assets (C183 to C186, C190): `TokensModel.v`. The calls of pallet_assets with what pallet_assets_freezer keeps frozen (dependencies, from memory) as Kreivo sets them up: approvals and their deposits, the four roles, freezing, destruction, supply. Other pallets give and take tokens and freeze them in steps of their own; whether an account can come into being and a reserve is allowed are oracles. Metadata, deposits of owners, accounts opened with a deposit, `transfer_all` and `create` (nobody's on Kreivo) are left out.

The native token (C187 to C189): `NativeModel.v`. The calls of pallet_balances (a dependency, from memory) as Kreivo sets it up: free, set aside and frozen, the minimum and how accounts below it go, what is issued. Other pallets give, take, set aside, release, slash and freeze in steps of their own, without reasons and names; whether others provide for an account or depend on it are oracles. `upgrade_accounts`, the bounds on locks, reserves and freezes, and inactive issuance are left out.

Referenda and communities on Kreivo (C68-C72, C90, C91): `ManagerModel.v` on top of `CommunitiesModel.v`.

## Trusted base

* Coq 8.16.1: its kernel, and `vm_compute` for the closed examples. `coqchk` accepts the compiled files.
* Axioms: `Print Assumptions` stands beneath every theorem of `Props*.v` and answers "Closed under the global context" for each. No axiom,
  parameter or section-less hypothesis is declared in this development. Loading std++ loads ssreflect's `Coq.ssr.ssrunder.Under_rel` module, whose
  seven opaque constants (`Under_rel`, `Under_rel_from_rel`, `Under_relE`, `under_rel_done`, `over_rel`, `over_rel_done`, `Over_rel`) show up
  in the list of library axioms of `coqchk`; no theorem depends on them.
* Libraries: the Coq standard library and std++ (`gmap`, `list`, `strings`). No plugins.
* The reading of `/repo`: each definition of a `*Model.v` file cites the lines it models. That the citation is faithful is by inspection.
* The reading of dependencies that are not in `/repo` (polkadot-sdk stable2409, bs58 0.5, fc-* pallets), recalled from their published source. They
  enter either as an oracle the theorems quantify over (ledger refusals, scheduler timing, polls, memberships, delivery) or as a definition whose
  comment says "(dependency)".

### What is modelled

| /repo | model |
|---|---|
| `common/src/payment_id.rs` | `PaymentIdModel.v` (all, with the bs58 routines) |
| `common/src/multilocation_asset_id.rs` | `AssetLocationModel.v` (all but the benchmark helper) |
| `pallets/payments/src/{lib,types}.rs` | `PaymentsModel.v`, `FeesModel.v`, `LedgerModel.v` (all calls) |
| `pallets/payments/src/lib.rs` (events) | `PaymentsEventsModel.v` |
| `runtime/kreivo/src/payments.rs` | `KreivoPaymentsModel.v` |
| `pallets/communities/src/{lib,functions,impls,types,origin}.rs` | `CommunitiesModel.v`, `OriginTypes.v` (all calls, with their events) |
| `pallets/communities-manager/src/lib.rs` | `ManagerModel.v` |
| `runtime/kreivo/src/communities/{mod,governance,memberships}.rs` | `AccountsModel.v`, `ManagerModel.v`, `OriginTypes.v` |
| `runtime/kreivo/src/governance/{origins,tracks}.rs`, `collective/tracks.rs` | `TracksModel.v`, `ManagerModel.v` |
| `runtime/kreivo/src/collective/{mod,governance,tracks}.rs`, `communities/governance.rs`, `lib.rs` (scheduler) as a whole | `GovernanceModel.v` |
| `runtime/kreivo/src/{impls,contracts,constants}.rs`, `configuration/*.rs` | `ProxyModel.v`, `RuntimeModel.v` |
| `runtime/kreivo/src/xcm_config.rs`, `xcm_config/communities.rs` | `XcmConfigModel.v`, `AccountsModel.v`, `XcmInstrModel.v`, `XcmTraderModel.v`, `XcmExecModel.v`, `XcmSendModel.v` |
| `runtime/kreivo/src/weights/xcm/*.rs` | `XcmWeightsModel.v` |
| `runtime/kreivo/src/lib.rs` (scheduler) | `SchedulerModel.v` |
| `runtime/kreivo/src/weights/pallet_communities.rs`, `pallet_payments.rs`, `pallet_communities_manager.rs` | `CostModel.v`, `WritesModel.v` |
| `runtime/kreivo/src/configuration/monetary_stuff.rs` (fees), `lib.rs` (signed extensions), `runtime/common/src/impls.rs` | `TxFeesModel.v` |
| `runtime/kreivo/src/lib.rs` (`SignedExtra`, `VERSION`) | `TransactionsModel.v` |
| `runtime/kreivo/src/configuration/system_support.rs` (block weights and length), `weights/{block,extrinsic}_weights.rs` | `BlocksModel.v` |
| `runtime/kreivo/src/lib.rs` (message queue, XCMP queue, scheduler limits) | `BlocksModel.v`, `QueueModel.v` |
| `runtime/kreivo/src/lib.rs` (aura, consensus hook), `configuration/system_support.rs` (timestamp), `runtime-constants/src/lib.rs` (`time`) | `TimeModel.v` |
| `runtime/kreivo/src/configuration/monetary_stuff.rs` (`FeeMultiplierUpdate`) | `FeeMultiplierModel.v` |
| `runtime/kreivo/src/apis.rs` (`query_account_balances`; fees told) | `QueryModel.v`; `FeeQueryModel.v` |
| `runtime/kreivo/src/lib.rs` (collator selection, session, authorship), `chain-spec-generator` (collators at genesis) | `CollatorsModel.v` |
| `chain-spec-generator/src/main.rs` | `GeneratorModel.v` |
| `runtime/kreivo/src/impls.rs` (`ProxyType`), `runtime/kreivo/src/lib.rs` (proxies, with delays) | `ProxyModel.v`, `DelayedModel.v` |
| `runtime/kreivo/src/lib.rs` (multisig) | `MultiModel.v` |
| `runtime/kreivo/src/lib.rs` (proxies: deposits, accounts without keys) | `PureModel.v` |
| `runtime/kreivo/src/configuration/monetary_stuff.rs` (vesting) | `VestingModel.v` |
| `runtime/kreivo/src/lib.rs` (preimages) | `PreimageModel.v` |
| `runtime/kreivo/src/configuration/monetary_stuff.rs` (assets) | `TokensModel.v` |
| `runtime/kreivo/src/configuration/monetary_stuff.rs` (balances) | `NativeModel.v` |

### What is not modelled

Events of pallets other than payments and communities, metadata; storage hashers and encodings other than those of payment ids and asset ids; benchmarks, mocks and tests; the benchmarked weights of
pallets other than the communities pallet; the code of the dependencies beyond what the definitions and oracles above say (consensus beyond the slots and who has a turn, networking, the collator node, pallet_referenda's
alarms and the order of its deciding queues (a referendum may be looked at at any time), calls with which root rewrites storage, code or tracks, pallet_contracts' virtual machine); what is in chain specifications beyond what the genesis of collators says; fees for delivery (no router of Kreivo has a price), assets that are not fungible in messages; runtime API plumbing (the order of the balances told and the limit of twenty
items a decoder accepts are dropped).
Cryptographic hashing (scheduler names) is modelled as an injective name.
