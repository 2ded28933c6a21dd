{"id": "C01", "title": "Payment id <-> u64 is a bijection", "statement": "Converting a payment id to its u64 and back yields the same id, converting any u64 to a payment id and back yields the same number; so two payment ids are equal exactly when their numbers are.", "quantifier": "every payment id and every 64-bit number", "why_tests_cant": "2^64 values; a test samples a handful", "anchors": ["common/src/payment_id.rs: From<u64> for PaymentId, From<PaymentId> for u64"]}
{"id": "C02", "title": "Payment id SCALE codec round trip", "statement": "Encoding a payment id always yields exactly 8 bytes and decoding them, whatever bytes follow, returns the same id and leaves the rest of the input untouched; every 8-byte input decodes to an id that re-encodes to those bytes, and inputs shorter than 8 bytes are rejected.", "quantifier": "every payment id, every trailing input, every byte string", "why_tests_cant": "universally quantified over inputs and suffixes", "anchors": ["common/src/payment_id.rs: Encode, Decode, MaxEncodedLen"]}
{"id": "C03", "title": "Payment id text form round trips", "statement": "Printing a payment id (plain or with the dash) never crashes and gives 8 to 11 base58 characters (plus the dash), and parsing the printed text gives back the same id.", "quantifier": "every payment id, both formatting modes", "why_tests_cant": "needs induction on the base58 carry loops; tests cover two literals", "anchors": ["common/src/payment_id.rs: Display, FromStr"]}
{"id": "C04", "title": "Parsing a payment id never crashes", "statement": "Parsing any text as a payment id returns an id or a parse error, never a panic.", "quantifier": "every string", "why_tests_cant": "unbounded input space; only an adversarial input of the right shape exposes the failure", "anchors": ["common/src/payment_id.rs: FromStr::from_str"]}
{"id": "C05", "title": "Payment id text form is canonical", "statement": "A text that parses to a payment id is (up to the dash) the text that payment id prints as; so two different dash-free texts never denote the same payment.", "quantifier": "every pair of accepted strings", "why_tests_cant": "relates all accepted strings to all ids", "anchors": ["common/src/payment_id.rs: FromStr::from_str, Display"]}
{"id": "C06", "title": "Payment ids never repeat", "statement": "Two payments created in different (block, extrinsic) positions get different ids.", "quantifier": "every pair of block numbers, extrinsic indices and beneficiaries", "why_tests_cant": "pairs of positions are unbounded; a collision needs particular indices", "anchors": ["common/src/payment_id.rs: From<(u32,u32,[u8;2])>", "runtime/kreivo/src/payments.rs: PaymentId::next"]}
{"id": "C07", "title": "Asset id -> location -> asset id", "statement": "Every fungible asset id has a location, and converting that location back gives exactly that asset id; hence different assets never share a location.", "quantifier": "every asset id (all enum shapes, all field values)", "why_tests_cant": "infinite shape/value space", "anchors": ["common/src/multilocation_asset_id.rs: AsFungibleAssetLocation::convert, convert_back"]}
{"id": "C08", "title": "Location -> asset id is faithful", "statement": "If a location is recognised as an asset id then that asset id converts back to exactly the same location; no two locations alias one asset.", "quantifier": "every XCM location, any junction list", "why_tests_cant": "locations are unbounded structured values", "anchors": ["common/src/multilocation_asset_id.rs: AsFungibleAssetLocation::convert"]}
{"id": "C09", "title": "Location recognition never crashes", "statement": "Asking which asset a location (possibly chosen by a remote chain) denotes returns an answer or 'not an asset', it never panics.", "quantifier": "every XCM location", "why_tests_cant": "only out-of-range indices in one shape expose it", "anchors": ["common/src/multilocation_asset_id.rs: AsFungibleAssetLocation::convert"]}
{"id": "C10", "title": "Asset id SCALE codec", "statement": "Decoding the encoding of an asset id followed by any bytes returns the id and those bytes; encodings are at most the declared maximum length; different ids have different encodings and none is a prefix of another.", "quantifier": "every asset id, every suffix", "why_tests_cant": "all inputs and suffixes", "anchors": ["common/src/multilocation_asset_id.rs: FungibleAssetLocation (derive Encode, Decode, MaxEncodedLen)"]}
{"id": "C11", "title": "Community accounts are distinct", "statement": "Different community ids have different sovereign accounts, and the id can be recovered from the account; community accounts differ from sub-accounts of every other pallet id.", "quantifier": "every pair of community ids, every other pallet id", "why_tests_cant": "pairwise over the whole id space", "anchors": ["pallets/communities/src/functions.rs: community_account", "runtime/kreivo/src/communities/mod.rs: CommunityPalletId"]}
{"id": "C12", "title": "Only a community's own account acts as the community", "statement": "The account-based authorisation route recognises account a as community c only if a is c's sovereign account.", "quantifier": "every account id", "why_tests_cant": "quantifies over 2^256 accounts", "anchors": ["runtime/kreivo/src/communities/mod.rs: AccountToCommunityId, EnsureCommunityAccount"]}
{"id": "C13", "title": "Address lookup", "statement": "Looking up an address given by account yields that account, by community index yields that community's account, and anything else is rejected; the reverse lookup of any account looks up to that account.", "quantifier": "every address", "why_tests_cant": "all addresses", "anchors": ["runtime/kreivo/src/configuration/system_support.rs: CommunityLookup"]}
{"id": "C14", "title": "Plurality location and community account agree", "statement": "A local plurality location with community index i converts to community i's account, and community i's account converts to the plurality location with index i, so remote chains and local code name the same account; no two pluralities share an account.", "quantifier": "every plurality index (u32), every account", "why_tests_cant": "all indices; failures only beyond 16 bits", "anchors": ["runtime/kreivo/src/xcm_config/communities.rs: PluralityConvertsToCommunityAccountId, SignedByCommunityToPlurality"]}
{"id": "C15", "title": "Payments neither create nor destroy funds", "statement": "Every payments call leaves the total of every asset (free plus held, over all accounts) unchanged, except for sub-minimum dust left in an account emptied by an expendable transfer; failed calls change nothing.", "quantifier": "every state, call, argument, fee schedule and external failure pattern", "why_tests_cant": "all states and all calls", "anchors": ["pallets/payments/src/lib.rs: all dispatchables"]}
{"id": "C16", "title": "Escrow is always fully backed", "statement": "In every history, for every account and asset, the funds on hold for payments cover the sum over open payments of what that payment still owes from that account (sender side: fees and incentive; beneficiary side: amount, plus incentive while in dispute).", "quantifier": "every history of payment calls, scheduler runs and outside balance changes", "why_tests_cant": "invariant over unbounded histories and unboundedly many payments", "anchors": ["pallets/payments/src/lib.rs: reserve_payment_amount, cancel_payment, settle_payment, dispute_refund"]}
{"id": "C17", "title": "No stranded escrow", "statement": "Funds are on hold for payments only on behalf of an open payment: the held amount equals the sum owed by open payments.", "quantifier": "every history", "why_tests_cant": "needs the exact invariant over histories; stranding needs a particular call order", "anchors": ["pallets/payments/src/lib.rs: accept_and_pay"]}
{"id": "C18", "title": "Payment life cycle", "statement": "A payment changes state only along: requested -> finished (accepted) or created (paid with the same id); created -> refund requested, finished or removed; refund requested -> needs review or removed; needs review -> finished; finished is final.", "quantifier": "every state and call", "why_tests_cant": "all call orders", "anchors": ["pallets/payments/src/lib.rs: all dispatchables", "pallets/payments/src/types.rs: PaymentState"]}
{"id": "C19", "title": "accept_and_pay only settles payment requests", "statement": "accept_and_pay succeeds only on a payment in the requested state.", "quantifier": "every state and caller", "why_tests_cant": "the test-suite only exercises requested payments", "anchors": ["pallets/payments/src/lib.rs: accept_and_pay"]}
{"id": "C20", "title": "A finished payment never pays again", "statement": "No call moves any funds on account of a payment that is already finished.", "quantifier": "every history", "why_tests_cant": "needs all calls on a finished payment", "anchors": ["pallets/payments/src/lib.rs: accept_and_pay, release, resolve_dispute"]}
{"id": "C21", "title": "Who may act on a payment", "statement": "A payment's record changes only by a call of its sender (release, request refund, accept), of its beneficiary (cancel, dispute; also via the scheduled cancel after a refund request), or of the dispute resolver (resolve); nobody else's call changes it.", "quantifier": "every caller, payment and call", "why_tests_cant": "all callers", "anchors": ["pallets/payments/src/lib.rs: origin checks in all dispatchables"]}
{"id": "C22", "title": "Cancelling undoes paying", "statement": "If the beneficiary cancels a payment that was just created, every balance (free and held, of every account) is what it was before the payment, and the record is gone.", "quantifier": "every state, payer, beneficiary, amount, fee schedule", "why_tests_cant": "all amounts/fee schedules, including payer = beneficiary", "anchors": ["pallets/payments/src/lib.rs: pay, cancel"]}
{"id": "C23", "title": "Release pays exactly", "statement": "When the sender releases a created payment, the beneficiary ends with the amount less beneficiary fees, each fee account gains exactly its fees, the sender's hold is returned less the sender fees, and no other balance moves.", "quantifier": "every state and fee schedule", "why_tests_cant": "all fee schedules and balances", "anchors": ["pallets/payments/src/lib.rs: release, settle_payment, try_transfer_fees"]}
{"id": "C24", "title": "Dispute split pays exactly", "statement": "Resolving a dispute moves exactly: mandatory fees to fee accounts, the loser's incentive to the resolver, and the declared percentage of the amount to each side; no other balance moves.", "quantifier": "every state, percentage, fee schedule and outcome", "why_tests_cant": "all percentages and amounts", "anchors": ["pallets/payments/src/lib.rs: resolve_dispute, settle_payment"]}
{"id": "C25", "title": "percent_beneficiary is the beneficiary's share", "statement": "Whoever is favoured, the beneficiary keeps percent_beneficiary of the amount after dispute resolution.", "quantifier": "every dispute outcome", "why_tests_cant": "tests only use one percentage per branch", "anchors": ["pallets/payments/src/lib.rs: settle_payment", "pallets/payments/src/types.rs: DisputeResult"]}
{"id": "C26", "title": "Refund timing", "statement": "After a refund request at block n the automatic refund cannot run before block n + buffer, it can be disputed exactly while the current block is before that, and a successful dispute removes the scheduled refund so that the payment can then only be ended by the resolver.", "quantifier": "every history and block number", "why_tests_cant": "timing over all schedules", "anchors": ["pallets/payments/src/lib.rs: request_refund, dispute_refund, cancel"]}
{"id": "C27", "title": "A stale scheduled refund is harmless", "statement": "If the payment ended before its scheduled refund fires, the scheduled call changes nothing.", "quantifier": "every history with fresh payment ids", "why_tests_cant": "all interleavings", "anchors": ["pallets/payments/src/lib.rs: request_refund, cancel"]}
{"id": "C28", "title": "Requesting a payment moves no funds", "statement": "request_payment never changes any balance or hold.", "quantifier": "every state and argument", "why_tests_cant": "all states", "anchors": ["pallets/payments/src/lib.rs: request_payment"]}
{"id": "C29", "title": "Accepting a request pays exactly", "statement": "accept_and_pay on a requested payment moves sender fees, amount, and beneficiary fees exactly, and finishes it.", "quantifier": "every state and fee schedule", "why_tests_cant": "all fee schedules", "anchors": ["pallets/payments/src/lib.rs: accept_and_pay"]}
{"id": "C30", "title": "Fee summary accounts for every fee", "statement": "For a normal settlement the summarised deductions equal the sum of the scheduled fees, each fee account appears once, in account order; for a dispute mandatory fees are charged and optional ones returned.", "quantifier": "every fee list", "why_tests_cant": "all fee lists, including repeated accounts with different flags", "anchors": ["pallets/payments/src/types.rs: Fees::get_summary"]}
{"id": "C31", "title": "Payments do not interfere", "statement": "A call on one payment leaves every other payment's record unchanged.", "quantifier": "every state, every pair of payments", "why_tests_cant": "all pairs; collisions need equal ids", "anchors": ["pallets/payments/src/lib.rs: storage keys Payment, PaymentParties"]}
{"id": "C32", "title": "A created payment can always be wound up", "statement": "For a created payment in any reachable state, the holds needed for cancel and release are present, so neither can fail for lack of held funds.", "quantifier": "every history", "why_tests_cant": "invariant over histories", "anchors": ["pallets/payments/src/lib.rs: release, cancel"]}
{"id": "C33", "title": "Kreivo fees", "statement": "On Kreivo the sender fee is the larger of the asset minimum and 1% (rounded down), the beneficiary fee the larger of the minimum and 3%, both mandatory, to the treasury; community accounts pay none; fees never exceed max(minimum, amount).", "quantifier": "every asset, account, amount", "why_tests_cant": "all amounts and accounts", "anchors": ["runtime/kreivo/src/payments.rs: KreivoFeeHandler::apply_fees"]}
{"id": "C34", "title": "Registration never overwrites", "statement": "Creating a community succeeds only for an unused id and an admin origin that administers nothing yet, and afterwards both map to each other; existing communities are untouched.", "quantifier": "every state and argument", "why_tests_cant": "all states", "anchors": ["pallets/communities/src/functions.rs: register", "pallets/communities/src/lib.rs: create"]}
{"id": "C35", "title": "One community per admin origin, one admin per community", "statement": "In every history each community has exactly one admin origin and no origin administers two communities.", "quantifier": "every history of registry calls", "why_tests_cant": "invariant over histories", "anchors": ["pallets/communities/src/lib.rs: set_admin_origin", "pallets/communities/src/functions.rs: register"]}
{"id": "C36", "title": "Only live communities authorise", "statement": "Root and unauthenticated callers never pass as a community; a community origin or admin passes only if the community exists and is active.", "quantifier": "every origin and state", "why_tests_cant": "all origins", "anchors": ["pallets/communities/src/origin.rs: EnsureCommunity, EnsureMember"]}
{"id": "C37", "title": "A blocked community cannot administer", "statement": "Once a community is blocked, no origin can use its administrative calls.", "quantifier": "every origin and state", "why_tests_cant": "all authorisation routes", "anchors": ["runtime/kreivo/src/communities/mod.rs: AdminOrigin, MemberMgmtOrigin", "pallets/communities/src/origin.rs: EnsureCommunity"]}
{"id": "C38", "title": "A community's settings change only by its own admin", "statement": "set_decision_method and set_admin_origin for community c succeed only for origins authorised as c.", "quantifier": "every origin, community, state", "why_tests_cant": "cross-community callers", "anchors": ["pallets/communities/src/lib.rs: set_decision_method, set_admin_origin"]}
{"id": "C39", "title": "Only members vote, with the community's method", "statement": "A vote is recorded only if the caller owns the membership, the poll is ongoing and belongs to that membership's community, and the vote kind, asset and minimum match the decision method.", "quantifier": "every state, caller and vote", "why_tests_cant": "all combinations", "anchors": ["pallets/communities/src/lib.rs: vote", "pallets/communities/src/functions.rs: try_vote"]}
{"id": "C40", "title": "Tally equals the recorded votes", "statement": "While ranks and decision methods do not change, every ongoing poll's ayes, nays and bare ayes equal the weighted sums of the recorded votes.", "quantifier": "every history of votes and removals", "why_tests_cant": "invariant over histories with unboundedly many voters", "anchors": ["pallets/communities/src/functions.rs: try_vote, try_remove_vote, Tally::add_vote, Tally::remove_vote"]}
{"id": "C41", "title": "Tally stays right when ranks or methods change", "statement": "The tally equals the weighted recorded votes in every history, including promotions, demotions and decision method changes between vote and removal.", "quantifier": "every history", "why_tests_cant": "needs interleavings of governance and membership calls", "anchors": ["pallets/communities/src/functions.rs: try_vote, try_remove_vote", "pallets/communities/src/lib.rs: promote, demote, set_decision_method"]}
{"id": "C42", "title": "Removing a vote undoes voting", "statement": "Voting and then removing the vote restores the tally, the recorded votes, the vote locks and the frozen amounts.", "quantifier": "every state and vote", "why_tests_cant": "all tallies incl. near saturation", "anchors": ["pallets/communities/src/lib.rs: vote, remove_vote", "pallets/communities/src/functions.rs: try_vote, try_remove_vote"]}
{"id": "C43", "title": "Re-voting replaces", "statement": "Voting again with the same membership leaves the tally as if only the last vote had been cast.", "quantifier": "every state, every sequence of votes", "why_tests_cant": "sequences of any length", "anchors": ["pallets/communities/src/lib.rs: vote"]}
{"id": "C44", "title": "Frozen funds cover every vote lock", "statement": "In every history the amount frozen for voting in an account (per asset, native) is at least every recorded vote lock of that account.", "quantifier": "every history", "why_tests_cant": "invariant over histories", "anchors": ["pallets/communities/src/functions.rs: update_locks"]}
{"id": "C45", "title": "Counted votes stay backed", "statement": "Every balance vote counted in an ongoing poll is backed by at least that amount frozen in the voter's account.", "quantifier": "every history", "why_tests_cant": "needs several memberships of one account", "anchors": ["pallets/communities/src/functions.rs: update_locks", "pallets/communities/src/lib.rs: CommunityVoteLocks"]}
{"id": "C46", "title": "Unlock only after the poll", "statement": "unlock fails while the poll is ongoing; otherwise it removes that lock and lowers the frozen amount to the maximum over remaining locks of that kind.", "quantifier": "every state", "why_tests_cant": "all lock sets", "anchors": ["pallets/communities/src/lib.rs: unlock", "pallets/communities/src/functions.rs: update_locks"]}
{"id": "C47", "title": "Approval and support are correct fractions", "statement": "Approval is ayes/(ayes+nays) and support is bare ayes/max support, both between 0 and 100%; approval grows with ayes and falls with nays.", "quantifier": "every tally", "why_tests_cant": "all 32-bit tallies", "anchors": ["pallets/communities/src/impls.rs: VoteTally for Tally"]}
{"id": "C48", "title": "Membership administration", "statement": "add_member assigns one of the community's unassigned memberships to the account, remove_member releases a membership of that account, promote/demote move the rank of that membership by one within bounds; no other membership changes.", "quantifier": "every state, community, account, membership", "why_tests_cant": "all states", "anchors": ["pallets/communities/src/lib.rs: add_member, remove_member, promote, demote"]}
{"id": "C49", "title": "dispatch_as_account uses only the own account", "statement": "dispatch_as_account dispatches with the sovereign account of exactly the community the origin is authorised for.", "quantifier": "every origin", "why_tests_cant": "all origins", "anchors": ["pallets/communities/src/lib.rs: dispatch_as_account", "pallets/communities/src/functions.rs: do_dispatch_as_community_account"]}
{"id": "C50", "title": "Community registration via the manager is all or nothing", "statement": "register either creates community, decision method, membership collection, governance track and collective seat together, or changes nothing.", "quantifier": "every state, argument and failing sub-step", "why_tests_cant": "all failure points", "anchors": ["pallets/communities-manager/src/lib.rs: register"]}
{"id": "C51", "title": "Membership creation", "statement": "create_memberships mints memberships with consecutive ids from the given one for the memberships manager, each offered at the given price, at most 1024 per call, and its event reports how many were minted.", "quantifier": "every amount and next id", "why_tests_cant": "all amounts; boundary ids", "anchors": ["pallets/communities-manager/src/lib.rs: create_memberships"]}
{"id": "C52", "title": "Proxy types are sound", "statement": "If proxy type A is a superset of B then every call B allows A allows; Any allows everything; NonTransfer never lets funds leave the account.", "quantifier": "every pair of proxy types, every call", "why_tests_cant": "all pairs and calls, including nested ones", "anchors": ["runtime/kreivo/src/impls.rs: ProxyType, InstanceFilter"]}
{"id": "C53", "title": "Scheduler privilege order", "statement": "Scheduler privilege comparison treats equal origins as equal and root as greatest, is consistent (antisymmetric, transitive) and never ranks unrelated origins.", "quantifier": "every pair/triple of origins", "why_tests_cant": "all origins", "anchors": ["runtime/kreivo/src/impls.rs: EqualOrGreatestRootCmp"]}
{"id": "C54", "title": "Referendum tracks", "statement": "Each governance origin maps to exactly one track, different origins to different tracks, every mapped track id is listed, ids are strictly increasing; other origins are rejected.", "quantifier": "every origin", "why_tests_cant": "all origins", "anchors": ["runtime/kreivo/src/collective/tracks.rs: TracksInfo"]}
{"id": "C55", "title": "Fees grow with weight", "statement": "The fee for a weight is the larger of the time and proof components, is monotone in both, and zero only for negligible weights.", "quantifier": "every weight", "why_tests_cant": "all 64-bit weights", "anchors": ["runtime/kreivo/src/constants.rs: WeightToFee, RefTimeToFee, ProofSizeToFee"]}
{"id": "C56", "title": "Storage deposit is linear", "statement": "deposit(items, bytes) is additive and monotone in both arguments while below overflow.", "quantifier": "all arguments", "why_tests_cant": "all arguments", "anchors": ["runtime/kreivo/src/constants.rs: deposit"]}
{"id": "C57", "title": "Reserve assets are trusted only from their own chain", "statement": "A reserve transfer of an asset is accepted only from the chain that location belongs to.", "quantifier": "every asset and origin location", "why_tests_cant": "all pairs", "anchors": ["runtime/kreivo/src/xcm_config.rs: ReserveAssetsFrom, ReserveForeignAssetsFrom, Reserves"]}
{"id": "C58", "title": "Prefix matching", "statement": "Location prefix matching accepts exactly the locations that extend the prefix at the same parent level.", "quantifier": "every pair of locations", "why_tests_cant": "all junction lists", "anchors": ["runtime/kreivo/src/xcm_config.rs: matches_prefix"]}
{"id": "C59", "title": "Community origins survive XCM", "statement": "Converting a community origin to a plurality junction and back yields the same origin.", "quantifier": "every community origin", "why_tests_cant": "all origins", "anchors": ["pallets/communities/src/origin.rs: TryFrom<RawOrigin> for Junction, TryFrom<Junction> for RawOrigin"]}
{"id": "C60", "title": "Pass challenges", "statement": "A login challenge is accepted only if it is the hash of one of the last 3 blocks, so it cannot be predicted beforehand.", "quantifier": "every context block, current block, challenge", "why_tests_cant": "all block numbers incl. future ones", "anchors": ["runtime/kreivo/src/configuration/system_support.rs: UnincludedBlockHashChallenger"]}
{"id": "C61", "title": "Locations and their accounts", "statement": "The relay chain, each sibling chain and each community (speaking as a whole) have different accounts here; an account location of this chain or the relay has exactly the named account; every other location has none.", "quantifier": "every location", "why_tests_cant": "all locations and pairs of locations", "anchors": ["runtime/kreivo/src/xcm_config.rs: LocationToAccountId", "runtime/kreivo/src/xcm_config/communities.rs: PluralityConvertsToCommunityAccountId, AccountId32FromRelay"]}
{"id": "C62", "title": "A part of a community is not the whole", "statement": "An origin or location standing for one member, some members or a fraction of a community cannot act with the community's sovereign account.", "quantifier": "every origin, every body part", "why_tests_cant": "all origins and parts", "anchors": ["pallets/communities/src/origin.rs: AsSignedByCommunity, TryFrom<RawOrigin> for Junction", "runtime/kreivo/src/xcm_config.rs: CanExecuteXcmTransactions, CanSendXcmMessages", "runtime/kreivo/src/xcm_config/communities.rs: PluralityConvertsToCommunityAccountId"]}
{"id": "C63", "title": "Larger balances weigh more", "statement": "Of two balance votes the one pledging more counts for more.", "quantifier": "every pair of balance votes", "why_tests_cant": "all 128-bit amounts", "anchors": ["pallets/communities/src/types.rs: From<&Vote> for VoteWeight", "pallets/communities/src/functions.rs: try_vote"]}
{"id": "C64", "title": "The same funds are not counted twice in a poll", "statement": "In every ongoing poll, the balance votes of an account add up to no more than what is frozen for voting in that account.", "quantifier": "every history, poll and account", "why_tests_cant": "needs several memberships of one account and any number of votes", "anchors": ["pallets/communities/src/functions.rs: try_vote, update_locks"]}
{"id": "C65", "title": "Nothing stays frozen without a vote lock", "statement": "In every history the amount of a token frozen for voting in an account is the largest of its vote locks in that token, and zero without any.", "quantifier": "every history", "why_tests_cant": "invariant over histories, with several polls and memberships", "anchors": ["pallets/communities/src/functions.rs: update_locks", "pallets/communities/src/lib.rs: unlock"]}
{"id": "C66", "title": "Voting leaves others alone", "statement": "Voting or taking a vote back changes only that membership's vote, that poll's tally, and the caller's (or replaced voter's) lock and frozen amount.", "quantifier": "every state and vote", "why_tests_cant": "frame condition over unboundedly many accounts, memberships and polls", "anchors": ["pallets/communities/src/lib.rs: vote, remove_vote"]}
{"id": "C67", "title": "Votes of ended polls are final", "statement": "Once a poll has ended no vote in it is ever added, changed or removed, and it never resumes.", "quantifier": "every history after the poll's end", "why_tests_cant": "histories of any length", "anchors": ["pallets/communities/src/lib.rs: vote, remove_vote", "pallets/communities/src/functions.rs: try_vote, try_remove_vote"]}
{"id": "C68", "title": "Only members propose to a community", "statement": "A referendum in a community's track is submitted only by one of its members (or by root).", "quantifier": "every origin, state and track", "why_tests_cant": "all origins and membership states", "anchors": ["runtime/kreivo/src/communities/governance.rs: EnsureCommunityMember/SubmitOrigin"]}
{"id": "C69", "title": "A community's track is its own", "statement": "A community's governance track is updated only by that community, speaking as a whole.", "quantifier": "every origin, track and history", "why_tests_cant": "all origins after histories of any length", "anchors": ["pallets/communities-manager/src/lib.rs: register", "runtime/kreivo/src/communities/governance.rs: CommunityTracks"]}
{"id": "C70", "title": "Price of registering a community", "statement": "Registering a community costs root nothing and everybody else exactly half a unit paid to the treasury.", "quantifier": "every origin and state", "why_tests_cant": "all origins", "anchors": ["runtime/kreivo/src/communities/mod.rs: RegisterOrigin", "pallets/communities-manager/src/lib.rs: register"]}
{"id": "C71", "title": "Communities are complete", "statement": "In every history of registrations each community has its membership collection, its track and its seat in the collective, owned by its own account, and nothing of these exists without the community.", "quantifier": "every history", "why_tests_cant": "invariant over histories of any length", "anchors": ["pallets/communities-manager/src/lib.rs: register"]}
{"id": "C72", "title": "Community names are text", "statement": "A community is registered only with a name that is the UTF-8 encoding of some text, and every such name passes the check.", "quantifier": "every byte string", "why_tests_cant": "all byte strings", "anchors": ["pallets/communities-manager/src/lib.rs: register"]}
{"id": "C73", "title": "Approval thresholds", "statement": "A community's default track asks for linearly falling approval (100% to 50%) and support (50% to 0%), so that what passes goes on passing and never without half of the votes in favour; Kreivo's own tracks ask for at least 90% approval, and creating memberships for half of approval and support.", "quantifier": "every moment and tally", "why_tests_cant": "all points of the curves", "anchors": ["pallets/communities-manager/src/lib.rs: default_tack", "runtime/kreivo/src/collective/tracks.rs: TracksInfo"]}
{"id": "C74", "title": "Who takes part in payments on Kreivo", "statement": "A community origin can pay, release, ask for a refund and accept a request, exactly as its sovereign account would; all other payment calls are closed to it, and every payment call is closed to origins that are neither accounts nor communities, except dispute resolution for root.", "quantifier": "every origin, call and state", "why_tests_cant": "all origins and calls", "anchors": ["runtime/kreivo/src/payments.rs: SenderOrigin, BeneficiaryOrigin, DisputeResolver"]}
{"id": "C75", "title": "Contracts", "statement": "Only root uploads contract code and only root and communities 1 and 2 instantiate contracts, each from its own account; contracts can call nothing in the runtime but native transfers.", "quantifier": "every origin and call", "why_tests_cant": "all origins, nested calls", "anchors": ["runtime/kreivo/src/contracts.rs: UploadOrigin, InstantiateOrigin, AllowBalancesCall", "pallets/communities/src/origin.rs: AsSignedByStaticCommunity"]}
{"id": "C76", "title": "Registering passes", "statement": "Root and communities register a pass account without deposit, accounts by paying the existential deposit to the treasury, and nobody else registers one.", "quantifier": "every origin", "why_tests_cant": "all origins", "anchors": ["runtime/kreivo/src/configuration/system_support.rs: RegisterOrigin, CommunitiesDontDeposit"]}
{"id": "C77", "title": "Who administers collators", "statement": "The collator set is administered by root and the voice of the relay chain's Defense body only.", "quantifier": "every origin", "why_tests_cant": "all origins", "anchors": ["runtime/kreivo/src/lib.rs: CollatorSelectionUpdateOrigin"]}
{"id": "C78", "title": "Proxies cannot escalate", "statement": "Nobody acts for an account that has no proxies; a proxy is added or removed on behalf of an account only by a proxy of at least that power, and all proxies are removed only by an unrestricted one.", "quantifier": "every set of proxies, signer and (nested) call", "why_tests_cant": "calls nested to any depth", "anchors": ["runtime/kreivo/src/impls.rs: ProxyType, InstanceFilter"]}
{"id": "C79", "title": "No free execution for other chains", "statement": "A message from another chain is executed only if it buys at least the weight it needs, or it comes from the relay chain or its executive body and asks for free execution.", "quantifier": "every message and origin", "why_tests_cant": "messages of any length and shape", "anchors": ["runtime/kreivo/src/xcm_config.rs: Barrier, ParentOrParentsExecutivePlurality"]}
{"id": "C80", "title": "Origins of remote calls", "statement": "A call sent by another chain is dispatched as the account or chain that location stands for, never as root, a community or anyone else.", "quantifier": "every location and origin kind", "why_tests_cant": "all locations", "anchors": ["runtime/kreivo/src/xcm_config.rs: XcmOriginToTransactDispatchOrigin"]}
{"id": "C81", "title": "Messages spend only what is the sender's", "statement": "Executing a message from another chain lowers no balance here except of accounts that stand for the sender's location or a place inside it.", "quantifier": "every message, sender, chain state and behaviour of the pallets called", "why_tests_cant": "programs of any length and nesting, any failures", "anchors": ["runtime/kreivo/src/xcm_config.rs: XcmConfig, AssetTransactors, LocationToAccountId"]}
{"id": "C82", "title": "Messages create no foreign assets", "statement": "Executing a message never increases the number of units of an asset unless the sender is that asset's home chain.", "quantifier": "every message, sender, asset and chain state", "why_tests_cant": "programs of any length and nesting", "anchors": ["runtime/kreivo/src/xcm_config.rs: Reserves, IsTeleporter, AssetTransactors"]}
{"id": "C83", "title": "Trapped assets are safe", "statement": "Assets left behind by messages are recovered only by the location they belong to or a place above it, and nothing is recorded in the name of a location that is not the sender or inside it.", "quantifier": "every message, sender and entry", "why_tests_cant": "programs of any length", "anchors": ["runtime/kreivo/src/xcm_config.rs: AssetTrap, AssetClaims"]}
{"id": "C84", "title": "Calls in messages", "statement": "Every call a message dispatches has an origin that belongs to the sender or a place inside it.", "quantifier": "every message and sender", "why_tests_cant": "programs of any length", "anchors": ["runtime/kreivo/src/xcm_config.rs: XcmOriginToTransactDispatchOrigin, OriginConverter"]}
{"id": "C85", "title": "No message crashes the chain", "statement": "Processing a message from another chain never panics.", "quantifier": "every message, sender and chain state", "why_tests_cant": "all programs", "anchors": ["runtime/kreivo/src/xcm_config.rs: XcmConfig", "common/src/multilocation_asset_id.rs: AsFungibleAssetLocation"]}
{"id": "C86", "title": "Messages end", "statement": "Processing a message takes at most twice as many steps as it has instructions, nested ones included, whatever fails on the way.", "quantifier": "every message and behaviour of the pallets called", "why_tests_cant": "programs of any length and nesting", "anchors": ["runtime/kreivo/src/xcm_config.rs: XcmConfig"]}
{"id": "C87", "title": "Payment comes first", "statement": "A message that neither comes from the relay chain nor its executive raises no balance and dispatches no call before it has bought all the weight it needs at the price asked.", "quantifier": "every message, sender and chain state", "why_tests_cant": "programs of any length", "anchors": ["runtime/kreivo/src/xcm_config.rs: Barrier, Traders"]}
{"id": "C88", "title": "Transfers from other chains arrive", "statement": "A well-formed transfer from the asset hub or from a place's own account here credits the beneficiary with the amount less the price of execution, credits the treasury with that price, and changes nothing else.", "quantifier": "every asset, amount, beneficiary and chain state", "why_tests_cant": "all amounts, assets and beneficiaries", "anchors": ["runtime/kreivo/src/xcm_config.rs: AssetTransactors, Traders, LocationToAccountId"]}
{"id": "C89", "title": "Programs of local users", "statement": "A program executed for an account or a community lowers no balance but that of the account, respectively the community.", "quantifier": "every origin and program", "why_tests_cant": "all programs", "anchors": ["runtime/kreivo/src/xcm_config.rs: LocalOriginToLocation, CanExecuteXcmTransactions"]}
{"id": "C90", "title": "Only root creates assets", "statement": "An asset comes into being only by root's decision: no account, member or community creates one, and its owner and minimum balance are what root decided.", "quantifier": "every history of registrations and calls", "why_tests_cant": "histories of any length", "anchors": ["runtime/kreivo/src/configuration/monetary_stuff.rs: CreateOrigin", "pallets/communities/src/lib.rs: set_decision_method", "pallets/communities-manager/src/lib.rs: register"]}
{"id": "C91", "title": "A community's own asset", "statement": "The asset created for a community to vote with answers to that community (or root), to no other community.", "quantifier": "every history, community and asset", "why_tests_cant": "all communities and assets", "anchors": ["pallets/communities/src/lib.rs: set_decision_method, dispatch_as_account", "pallets/communities/src/functions.rs: community_account"]}
{"id": "C92", "title": "Messages are weighed whole", "statement": "A message from another chain has a weight just if it has at most 100 instructions, those in nested programs included, and the sums fit 64 bits; its weight is then the sum over all instructions, plus what each Transact sets aside for its call.", "quantifier": "every message", "why_tests_cant": "programs of any nesting", "anchors": ["runtime/kreivo/src/weights/xcm/mod.rs: KreivoXcmWeight", "runtime/kreivo/src/xcm_config.rs: Weigher, MaxInstructions"]}
{"id": "C93", "title": "Weight covers the assets handled", "statement": "What is charged for an instruction that moves assets is at least the benchmarked cost of moving one, times the number of assets it moves.", "quantifier": "every message, instruction it comes to and set of assets held", "why_tests_cant": "all lists and filters", "anchors": ["runtime/kreivo/src/weights/xcm/mod.rs: WeighAssets, KreivoXcmWeight"]}
{"id": "C94", "title": "No message runs for free", "statement": "A message from another chain that does not come from the relay chain is executed only if it pays for weight.", "quantifier": "every message and sender", "why_tests_cant": "all messages", "anchors": ["runtime/kreivo/src/weights/xcm/mod.rs: WeighAssets", "runtime/kreivo/src/xcm_config.rs: Barrier"]}
{"id": "C95", "title": "Instructions that are not offered", "statement": "A message that contains, at any depth, an instruction this chain does not offer (exchanging or locking assets, exporting messages, taking universal or aliased origins, channel requests) has no effect at all.", "quantifier": "every message and sender", "why_tests_cant": "all programs, instruction at any depth", "anchors": ["runtime/kreivo/src/weights/xcm/mod.rs: KreivoXcmWeight (Weight::MAX)", "runtime/kreivo/src/xcm_config.rs: Barrier, Weigher"]}
{"id": "C96", "title": "Holding is limited", "statement": "While a message is executed it never holds more than 128 different assets.", "quantifier": "every message, environment and step", "why_tests_cant": "executions of any length", "anchors": ["runtime/kreivo/src/xcm_config.rs: MaxAssetsIntoHolding"]}
{"id": "C97", "title": "What one message can cause", "statement": "Processing one message has at most 100 messages sent and 100 calls dispatched, never more than it has instructions for that, and leaves at most one record of trapped assets.", "quantifier": "every message, sender and behaviour of the pallets called", "why_tests_cant": "programs of any nesting, any failures", "anchors": ["runtime/kreivo/src/xcm_config.rs: MaxInstructions, XcmConfig"]}
{"id": "C98", "title": "Calls stay within the weight", "statement": "The calls one message dispatches together weigh no more than the message was found to need, in time and proof size.", "quantifier": "every message, sender and behaviour of the pallets called", "why_tests_cant": "programs of any nesting", "anchors": ["runtime/kreivo/src/weights/xcm/mod.rs: KreivoXcmWeight", "runtime/kreivo/src/xcm_config.rs: Weigher"]}
{"id": "C99", "title": "What execution costs", "statement": "Weight bought by a message from another chain costs the fee for that weight in the relay chain's token, or in one sufficient asset of the asset hub or of Polkadot the same converted by the minimum balances but at least the asset's minimum balance; more weight never costs less, and the purchase succeeds just if what is offered is held and covers the price.", "quantifier": "every weight, asset, minimum balance and state of the message", "why_tests_cant": "all weights and balances", "anchors": ["runtime/kreivo/src/xcm_config.rs: Traders, AssetFeeAsExistentialDepositMultiplierFeeCharger", "runtime/kreivo/src/constants.rs: WeightToFee"]}
{"id": "C100", "title": "Refunds", "statement": "What a message is refunded for weight it did not need is never more than what it paid.", "quantifier": "every message, sender and environment", "why_tests_cant": "programs of any length, nesting and order of purchases and refunds", "anchors": ["runtime/kreivo/src/xcm_config.rs: Traders", "runtime/kreivo/src/constants.rs: WeightToFee"]}
{"id": "C101", "title": "Refunds follow use", "statement": "At the end of a message the weight counted as unused is exactly what it was found to need less what the instructions it tried weigh and its calls used; a message that buys execution once and asks for no refund thus pays the price of what it needed less the price of what it did not use (in an asset at least the minimum balance); and no weight is refunded twice.", "quantifier": "every message, sender, chain state and behaviour of the pallets called", "why_tests_cant": "programs of any length and nesting, any failures and error handlers", "anchors": ["runtime/kreivo/src/xcm_config.rs: Weigher, Traders", "runtime/kreivo/src/weights/xcm/mod.rs: KreivoXcmWeight"]}
{"id": "C102", "title": "The work of a voting call is covered by its weight", "statement": "The number of stored entries a call to vote, to take a vote back or to unlock reads is bounded, so that the fixed weight it declares (and is charged for) covers its work.", "quantifier": "every history of the chain and every call", "why_tests_cant": "histories of any length", "anchors": ["pallets/communities/src/functions.rs: update_locks", "runtime/kreivo/src/weights/pallet_communities.rs: vote, remove_vote, unlock"]}
{"id": "C103", "title": "Charges for calls dispatched as a community", "statement": "A call dispatched as a community's account is charged at most what it declares, at least what the call alone would be charged plus the work of the dispatch itself, in full if it fails, and is free only if the call says so.", "quantifier": "every call, declared weight, result and origin", "why_tests_cant": "all results a call can report", "anchors": ["pallets/communities/src/origin.rs: dispatch_as_account", "pallets/communities/src/functions.rs: do_dispatch_as_community_account"]}
{"id": "C104", "title": "The fee of a transaction", "statement": "The fee is the fee for an empty transaction, ten millicents per byte, the fee for the call's weight times the multiplier, and the tip; it grows with each of them; what is due after the call is never more than announced; nothing is to be paid just if the call declares to be free and there is no tip.", "quantifier": "every length, weight, multiplier, tip and result of the call", "why_tests_cant": "all numbers", "anchors": ["runtime/kreivo/src/configuration/monetary_stuff.rs: pallet_transaction_payment::Config", "runtime/kreivo/src/constants.rs: WeightToFee"]}
{"id": "C105", "title": "Paying fees in the native token", "statement": "A transaction is included only if the payer can pay the announced fee and keep the minimum balance; it pays before its call runs; afterwards it gets back what is not due and the treasury gets the rest, and no other balance changes by it.", "quantifier": "every payer, state, call and result", "why_tests_cant": "any effect of the call on balances", "anchors": ["runtime/kreivo/src/configuration/monetary_stuff.rs: OnChargeTransaction", "runtime/kreivo/src/lib.rs: SignedExtra"]}
{"id": "C106", "title": "Paying fees in an asset", "statement": "A transaction that pays in an asset is included only if the asset is sufficient and the payer can pay the fee in terms of the asset and keep the minimum balance; afterwards it gets back what is not due and the author of the block gets the rest; what cannot be given to them is burnt.", "quantifier": "every payer, asset, author, state, call and result", "why_tests_cant": "any effect of the call on balances", "anchors": ["runtime/kreivo/src/configuration/monetary_stuff.rs: OnChargeAssetTransaction", "runtime/common/src/impls.rs: AssetsToBlockAuthor"]}
{"id": "C107", "title": "Nothing runs unpaid", "statement": "The call of a signed transaction runs only if it is feeless, the payer's memberships hold gas for it, it declares to be free and gives no tip, or the payer has been charged first.", "quantifier": "every transaction, payer and state", "why_tests_cant": "any call and balances", "anchors": ["runtime/kreivo/src/lib.rs: SignedExtra, ChargeTransaction", "runtime/kreivo/src/configuration/monetary_stuff.rs: GasBurner"]}
{"id": "C108", "title": "Balances told by the runtime API", "statement": "The balances the API tells of an account are exactly those of the tokens it has: the relay chain's token and every asset with a balance above zero, each once, under its location, with its balance.", "quantifier": "every account and set of assets", "why_tests_cant": "any number of assets of any kind", "anchors": ["runtime/kreivo/src/apis.rs: query_account_balances", "common/src/multilocation_asset_id.rs: convert_back"]}
{"id": "C109", "title": "A resolver's decision can be carried out", "statement": "Whatever division of a disputed payment the resolver decides, between nothing and everything for either side, the call that decides it succeeds.", "quantifier": "every history, dispute and decision", "why_tests_cant": "all histories and balances of the parties", "anchors": ["pallets/payments/src/lib.rs: resolve_dispute, settle_payment", "runtime/kreivo/src/payments.rs: KreivoFeeHandler"]}
{"id": "C110", "title": "An undisputed refund is paid", "statement": "If a refund is requested and the beneficiary does not dispute it in time, the sender gets the amount and their own escrow back in the announced block.", "quantifier": "every history in which a refund is requested", "why_tests_cant": "all histories, and any behaviour of ledger and scheduler in the block of the refund", "anchors": ["pallets/payments/src/lib.rs: request_refund, cancel"]}
{"id": "C111", "title": "Ended payments leave no record", "statement": "A payment that is completed or cancelled is removed from storage.", "quantifier": "every history", "why_tests_cant": "histories of any length", "anchors": ["pallets/payments/src/types.rs: PaymentState (doc comment)", "pallets/payments/src/lib.rs: settle_payment, cancel"]}
{"id": "C112", "title": "A payment request is only changed by being accepted", "statement": "A request for payment stays as it is until the one asked to pay accepts it.", "quantifier": "every history, request and later step", "why_tests_cant": "histories of any length", "anchors": ["pallets/payments/src/lib.rs: request_payment (doc comment), accept_and_pay, create_payment"]}
{"id": "C113", "title": "Events tell the state of payments", "statement": "Whoever follows the events of the payments pallet knows which payments there are and in which state each is.", "quantifier": "every history", "why_tests_cant": "histories of any length", "anchors": ["pallets/payments/src/lib.rs: Event, deposit_event"]}
{"id": "C114", "title": "Events tell the votes", "statement": "Whoever follows the events of the communities pallet knows the vote every voter has in every poll.", "quantifier": "every history", "why_tests_cant": "histories of any length", "anchors": ["pallets/communities/src/lib.rs: VoteCasted, VoteRemoved, vote, remove_vote"]}
{"id": "C115", "title": "Events of communities are true", "statement": "What an event of the communities pallet says is true of the chain before and after the call that deposited it; every call that changes something deposits one.", "quantifier": "every call that succeeds, in every state", "why_tests_cant": "all states and calls", "anchors": ["pallets/communities/src/lib.rs: Event, deposit_event"]}
{"id": "C116", "title": "The collective decides what is privileged", "statement": "A call is dispatched as root or with one of the chain's custom origins only in carrying out a decision that the collective approved, made for this origin or for root.", "quantifier": "every history of transactions, messages from other chains, blocks and scheduled tasks, and every call that comes to be dispatched in it", "why_tests_cant": "histories of any length, calls nested in batches, in calls dispatched as others and in scheduled tasks", "anchors": ["runtime/kreivo/src/collective/governance.rs: pallet_referenda::Config", "runtime/kreivo/src/collective/tracks.rs: track_for", "runtime/kreivo/src/communities/governance.rs: pallet_referenda::Config", "runtime/kreivo/src/lib.rs: pallet_scheduler::Config, ScheduleOrigin"]}
{"id": "C117", "title": "The chain stays governable", "statement": "The collective can at all times bring about any call as root.", "quantifier": "every history from every genesis", "why_tests_cant": "histories of any length", "anchors": ["runtime/kreivo/src/collective/mod.rs: pallet_ranked_collective::Config (AddOrigin, PromoteOrigin, MinRankOfClass)", "chain-spec-generator/src/spec/local.rs: genesis"]}
{"id": "C118", "title": "Decisions are carried out once, as proposed", "statement": "What an approved referendum proposed is dispatched at most once, exactly the call and the origin that were proposed; in the collective anyone proposes, in a community only root and who holds a membership.", "quantifier": "every history and referendum", "why_tests_cant": "histories of any length", "anchors": ["runtime/kreivo/src/collective/governance.rs: SubmitOrigin", "runtime/kreivo/src/communities/governance.rs: SubmitOrigin", "runtime/kreivo/src/lib.rs: pallet_scheduler::Config"]}
{"id": "C119", "title": "Referenda that ended stay ended; communities speak for themselves", "statement": "A referendum that was approved, rejected, cancelled, killed or timed out stays so; a call is dispatched as a community only in carrying out a decision of this community or one of the collective as root.", "quantifier": "every history and referendum", "why_tests_cant": "histories of any length", "anchors": ["runtime/kreivo/src/communities/governance.rs: pallet_referenda::Config, track_for", "runtime/kreivo/src/collective/governance.rs: CancelOrigin, KillOrigin"]}
{"id": "C120", "title": "Communities decide by votes of their members", "statement": "No proposal of a community is approved unless somebody who holds a membership of this community votes aye.", "quantifier": "every history and referendum", "why_tests_cant": "histories of any length, any track settings", "anchors": ["runtime/kreivo/src/communities/governance.rs: pallet_referenda_tracks::Config", "pallets/communities-manager/src/lib.rs: register (track_info)", "pallets/communities/src/lib.rs: vote"]}
{"id": "C121", "title": "The collective's votes are counted right", "statement": "The tally of a referendum of the collective is the sum of the last votes of each member, each counted as many times as the member's rank was when voting; what is approved has nine tenths of the votes (memberships: half, and half of the ranked members), and at least one aye.", "quantifier": "every history and referendum", "why_tests_cant": "histories of any length, promotions and removals in between", "anchors": ["runtime/kreivo/src/collective/mod.rs: VoteWeight, MinRankOfClass", "runtime/kreivo/src/collective/tracks.rs: tracks"]}
{"id": "C122", "title": "Only root changes ranks", "statement": "The rank of an account in the collective changes only by a call of root about it; accounts join only at rank 0, as the account of a community that is registered.", "quantifier": "every step of every history", "why_tests_cant": "all calls, nested ones included", "anchors": ["runtime/kreivo/src/collective/mod.rs: pallet_ranked_collective::Config", "pallets/communities-manager/src/lib.rs: register"]}
{"id": "C123", "title": "How long decisions take", "statement": "A decision is carried out only after its track's preparation period, after thresholds were reached at every look for a whole confirmation period, and no earlier than its enactment period and the moment it asks for; in the collective never within 301 blocks of being proposed.", "quantifier": "every history and referendum, whatever the track settings are meanwhile", "why_tests_cant": "histories of any length, looks at any time", "anchors": ["runtime/kreivo/src/collective/tracks.rs: tracks", "runtime/kreivo/src/communities/governance.rs: pallet_referenda::Config"]}
{"id": "C124", "title": "Decisions as root have broad support", "statement": "A call is dispatched as root only if a share of the ranked members fixed in advance supports it.", "quantifier": "every history", "why_tests_cant": "histories of any length", "anchors": ["runtime/kreivo/src/collective/tracks.rs: tracks (min_support)"]}
{"id": "C125", "title": "A signed transaction takes effect at most once", "statement": "A transaction that was included is never included again.", "quantifier": "every history of transactions, blocks, accounts created and reaped, and upgrades, and every transaction", "why_tests_cant": "histories of any length, transactions kept and submitted again by anybody", "anchors": ["runtime/kreivo/src/lib.rs: SignedExtra (CheckNonce, CheckEra)", "runtime/kreivo/src/configuration/system_support.rs: frame_system::Config"]}
{"id": "C126", "title": "Transactions of an account are applied in order", "statement": "While an account exists, its transactions that are not feeless are included in the order of their nonces, none left out.", "quantifier": "every history, account and order of submission", "why_tests_cant": "histories of any length", "anchors": ["runtime/kreivo/src/lib.rs: SignedExtra (CheckNonce)"]}
{"id": "C127", "title": "A transaction counts only where and when it was signed for", "statement": "A transaction is included only on the chain whose genesis was signed, by a runtime of the versions signed, and if it is mortal only less than its period (at most 4096 blocks) after the block it names.", "quantifier": "every history and transaction", "why_tests_cant": "histories of any length", "anchors": ["runtime/kreivo/src/lib.rs: SignedExtra (CheckGenesis, CheckSpecVersion, CheckTxVersion, CheckEra), VERSION", "runtime/kreivo/src/configuration/system_support.rs: BlockHashCount"]}
{"id": "C128", "title": "Blocks fit", "statement": "What goes into a block never exceeds the limits of a block in time, proof and length.", "quantifier": "every sequence of hooks and transactions of a block", "why_tests_cant": "sequences of any length, any weights and refunds", "anchors": ["runtime/kreivo/src/configuration/system_support.rs: RuntimeBlockWeights, RuntimeBlockLength", "runtime/kreivo/src/lib.rs: MAXIMUM_BLOCK_WEIGHT, MessageQueueServiceWeight, MaximumSchedulerWeight"]}
{"id": "C129", "title": "Room for operational transactions", "statement": "However full a block is of other transactions, operational ones get a quarter of it.", "quantifier": "every sequence of hooks and transactions of a block", "why_tests_cant": "sequences of any length, any weights", "anchors": ["runtime/kreivo/src/configuration/system_support.rs: RuntimeBlockWeights (reserved)"]}
{"id": "C130", "title": "Transactions get into blocks", "statement": "A normal transaction that is no larger than permitted gets into a block that has only begun.", "quantifier": "every transaction and use of the block by hooks", "why_tests_cant": "all weights and lengths", "anchors": ["runtime/kreivo/src/configuration/system_support.rs: RuntimeBlockWeights", "runtime/kreivo/src/lib.rs: MaximumSchedulerWeight, MessageQueueServiceWeight"]}
{"id": "C131", "title": "Delivered messages are queued", "statement": "Messages that a sibling chain delivers in a page within the limits of its channel get into the queue, in their order.", "quantifier": "every page", "why_tests_cant": "pages of any number of messages of any length", "anchors": ["runtime/kreivo/src/lib.rs: HeapSize, MaxPageSize"]}
{"id": "C132", "title": "No message is lost or executed twice in the queue", "statement": "Every message that got into the queue was executed, is set aside or waits, exactly once; those that fit the weight of the queue are executed in the order of their delivery by each chain; only those that do not are set aside.", "quantifier": "every history of pages, blocks and overweight executions, any chains paused", "why_tests_cant": "histories of any length", "anchors": ["runtime/kreivo/src/lib.rs: pallet_message_queue::Config, MessageQueueServiceWeight"]}
{"id": "C133", "title": "Queued messages are executed", "statement": "Every message that got into the queue is executed after a bounded number of blocks, whatever other chains deliver.", "quantifier": "every history and message, any number of chains", "why_tests_cant": "histories of any length, any weights", "anchors": ["runtime/kreivo/src/lib.rs: MessageQueueServiceWeight, IdleMaxServiceWeight", "runtime/kreivo/src/configuration/system_support.rs: RuntimeBlockWeights"]}
{"id": "C134", "title": "Referenda end for a reason", "statement": "A referendum is rejected only when it misses its thresholds after its whole decision period, times out only when its deposit is missing or its preparation not over after two days (a community's: fourteen), and is cancelled or killed only by the origin for that (a community's: root).", "quantifier": "every step of every history and every referendum", "why_tests_cant": "histories of any length, calls nested in others", "anchors": ["runtime/kreivo/src/collective/governance.rs: CancelOrigin, KillOrigin, UndecidingTimeout", "runtime/kreivo/src/communities/governance.rs: CancelOrigin, KillOrigin, UndecidingTimeout", "runtime/kreivo/src/collective/tracks.rs: tracks"]}
{"id": "C135", "title": "Periods last as long as they are called", "statement": "A period counted in blocks lasts at least as long as it is called: a beneficiary has two days to dispute a refund, a decision that takes four days takes four days.", "quantifier": "every chain of blocks the runtime accepts, any period", "why_tests_cant": "chains of any length, any slots and timestamps, any progress of the relay chain", "anchors": ["runtime/kreivo/src/lib.rs: async_backing_params, ConsensusHook, SLOT_DURATION, pallet_aura::Config", "runtime/runtime-constants/src/lib.rs: time", "runtime/kreivo/src/payments.rs: CancelBufferBlockLength", "runtime/kreivo/src/collective/tracks.rs: decision_period"]}
{"id": "C136", "title": "Fees follow demand, slowly", "statement": "The multiplier of the fee for weight never falls below a tenth; a block whose normal transactions take a quarter or more of their share does not lower it, any other does not raise it; it changes by at most 57 millionths per block, in a day to at most 2.28 times and at least 0.76 times, and a day of full blocks doubles it.", "quantifier": "every sequence of blocks, however full, and every multiplier", "why_tests_cant": "sequences of any length, all weights, fixed point rounding", "anchors": ["runtime/kreivo/src/configuration/monetary_stuff.rs: FeeMultiplierUpdate", "runtime/kreivo/src/configuration/system_support.rs: RuntimeBlockWeights"]}
{"id": "C137", "title": "Transfers to other chains are exact", "statement": "A transfer to another chain takes from the caller exactly the amounts they name and nothing else from anyone; each amount is either put into the destination's account here and declared to it, or burnt here and withdrawn in this chain's name by the one message that is sent, which ends with the deposit of all of it for the beneficiary named, at the destination.", "quantifier": "every transfer call, caller, destination, list of assets and state", "why_tests_cant": "any assets and amounts, all destinations, fees paid with any of them", "anchors": ["runtime/kreivo/src/xcm_config.rs: pallet_xcm::Config (XcmReserveTransferFilter), XcmConfig (IsReserve, AssetTransactor)"]}
{"id": "C138", "title": "Tokens go by way of the chain that holds them in reserve", "statement": "The message of a transfer goes to the chain that holds the reserve of what it withdraws, and what is kept here is an asset of this chain.", "quantifier": "every transfer call whose way the runtime chooses", "why_tests_cant": "any assets and destinations", "anchors": ["runtime/kreivo/src/xcm_config.rs: Reserves, ReserveAssetsFrom, ReserveForeignAssetsFrom"]}
{"id": "C139", "title": "Locations keep their meaning", "statement": "An asset told to another chain in a message is, seen from there, the asset that was meant here.", "quantifier": "every pair of an asset's and a chain's location", "why_tests_cant": "locations of any depth", "anchors": ["runtime/kreivo/src/xcm_config.rs: UniversalLocation"]}
{"id": "C140", "title": "In whose name messages go out", "statement": "Messages of one's own choice go out only for a community and in its name; the messages of transfers do nothing in this chain's name but take or declare assets and pay with them; nobody teleports, executes programs or sends as the chain itself.", "quantifier": "every call, caller and state", "why_tests_cant": "any message and caller, accounts made to look like those of communities", "anchors": ["runtime/kreivo/src/xcm_config.rs: SendXcmOrigin, CanSendXcmMessages, XcmExecuteFilter, XcmTeleportFilter", "runtime/kreivo/src/xcm_config/communities.rs: SignedByCommunityToPlurality"]}
{"id": "C141", "title": "Trapped assets can be recovered", "statement": "Whoever assets lie trapped for can recover them.", "quantifier": "every record of trapped assets, every later history", "why_tests_cant": "histories of any length, holdings of any size", "anchors": ["runtime/kreivo/src/xcm_config.rs: XcmConfig (AssetTrap, AssetClaims, MaxAssetsIntoHolding), pallet_xcm::Config"]}
{"id": "C142", "title": "Somebody can always author", "statement": "At every moment there is at least one key whose turn comes, whatever governance and candidates do, and never more than 1100.", "quantifier": "every history of calls, blocks and payments from any genesis with a collator", "why_tests_cant": "histories of any length, all callers", "anchors": ["runtime/kreivo/src/lib.rs: pallet_collator_selection::Config, pallet_session::Config, pallet_aura::Config", "chain-spec-generator/src/spec/local.rs"]}
{"id": "C143", "title": "Who authors is decided by bonds, a session ahead", "statement": "At the beginning of a session of 3600 blocks the invulnerables and the candidates with the highest bonds, as many as desired, are chosen to author from the beginning of the next session, and authors change at no other time.", "quantifier": "every history, any number of candidates, bonds and changes of them", "why_tests_cant": "histories of any length", "anchors": ["runtime/kreivo/src/lib.rs: pallet_collator_selection::Config, pallet_session::Config (Period, Offset)"]}
{"id": "C144", "title": "One turn each", "statement": "No key has two turns among those that author in a session.", "quantifier": "every history", "why_tests_cant": "histories of any length, accounts that are candidates and invulnerable", "anchors": ["runtime/kreivo/src/lib.rs: pallet_collator_selection::Config"]}
{"id": "C145", "title": "Bonds of collators are safe", "statement": "What is set aside from an account is exactly the bond it stands with, at least the bond asked for, and nothing from those who do not stand; nobody gains or loses by anything that happens to collators.", "quantifier": "every step of every history and every account", "why_tests_cant": "histories of any length, bonds raised and lowered, places taken over", "anchors": ["runtime/kreivo/src/lib.rs: pallet_collator_selection::Config (Currency)"]}
{"id": "C146", "title": "Why candidates stop", "statement": "A candidate stops being one only by leaving, being outbid by more than they bonded, having less than a bond newly asked for, becoming invulnerable, or not having authored a block for a session's length as one begins; they get their whole bond back at once, and can leave whenever others are there.", "quantifier": "every step of every history and every candidate", "why_tests_cant": "histories of any length", "anchors": ["runtime/kreivo/src/lib.rs: pallet_collator_selection::Config (KickThreshold, MinEligibleCollators)"]}
{"id": "C147", "title": "There are enough to choose from", "statement": "The invulnerables and candidates together never become fewer than one.", "quantifier": "every step of every history", "why_tests_cant": "histories of any length, all callers", "anchors": ["runtime/kreivo/src/lib.rs: pallet_collator_selection::Config (MinEligibleCollators, UpdateOrigin)"]}
{"id": "C148", "title": "Nobody is removed for idling before their turn", "statement": "A candidate is not removed for not having authored before their key had a turn.", "quantifier": "every history and candidate", "why_tests_cant": "histories of any length, all moments of joining", "anchors": ["runtime/kreivo/src/lib.rs: pallet_collator_selection::Config (KickThreshold), Period"]}
{"id": "C149", "title": "Who changes what about collators", "statement": "Only the origin that governs collators changes the invulnerables, how many candidates are wanted and the bond asked for; an account's keys, and that it stands with a bond, come about only by its own calls; whoever has keys and tokens enough can stand, and take the place of any candidate who bonded less.", "quantifier": "every step of every history and every account", "why_tests_cant": "histories of any length, all callers", "anchors": ["runtime/kreivo/src/lib.rs: pallet_collator_selection::Config, CollatorSelectionUpdateOrigin, pallet_session::Config"]}
{"id": "C150", "title": "The fee told is the fee", "statement": "The fee the runtime API tells for a signed transaction, with its tip, is what is charged before its call runs if nothing happens in between, and no more than six thousandths above it within a hundred blocks, however full they are; who has it in the native token gets the transaction included and pays no more; the parts told add up to it.", "quantifier": "every transaction, multiplier and sequence of blocks between asking and inclusion", "why_tests_cant": "all weights, lengths, tips and sequences of blocks, fixed point rounding", "anchors": ["runtime/kreivo/src/apis.rs: query_info, query_fee_details, query_call_info, query_call_fee_details, query_weight_to_fee, query_length_to_fee", "runtime/kreivo/src/configuration/monetary_stuff.rs: pallet_transaction_payment::Config"]}
{"id": "C151", "title": "Payments write no more than they are charged for", "statement": "No call about a payment changes more entries of storage than the writes counted in the weight it declares.", "quantifier": "every history, call, caller and behaviour of ledger and scheduler", "why_tests_cant": "all histories, payments and balances", "anchors": ["runtime/kreivo/src/weights/pallet_payments.rs: pay, release, cancel, request_refund, dispute_refund, resolve_dispute, request_payment, accept_and_pay", "pallets/payments/src/lib.rs: call weights", "runtime/kreivo/src/payments.rs: KreivoFeeHandler"]}
{"id": "C152", "title": "Calls about communities write no more than they are charged for", "statement": "No call of the communities pallet or of its manager changes more entries of storage than the writes counted in the weight it declares.", "quantifier": "every state, call and caller, any number of memberships created", "why_tests_cant": "all states and calls", "anchors": ["runtime/kreivo/src/weights/pallet_communities.rs: vote, remove_vote, unlock, set_admin_origin, set_decision_method", "runtime/kreivo/src/weights/pallet_communities_manager.rs: register, create_memberships", "pallets/communities/src/functions.rs: update_locks", "pallets/communities-manager/src/lib.rs: register, create_memberships"]}
{"id": "C153", "title": "A refund can be asked for", "statement": "The sender of a payment that is neither finished nor in dispute can ask for its refund at any time, whatever others have scheduled.", "quantifier": "every history of payments and of the scheduler", "why_tests_cant": "all schedules made by others", "anchors": ["pallets/payments/src/lib.rs: request_refund", "runtime/kreivo/src/lib.rs: pallet_scheduler::Config, MaxScheduledPerBlock, MaximumSchedulerWeight"]}
{"id": "C154", "title": "What is scheduled is carried out once", "statement": "A task is carried out at most once, not before the block it is scheduled for, and not unless it was scheduled for it; until it is carried out or withdrawn it is not lost; no more than fifty wait for a block.", "quantifier": "every history of calls and blocks, whatever the tasks do and weigh", "why_tests_cant": "histories of any length, nested scheduling and withdrawing, all weights", "anchors": ["runtime/kreivo/src/lib.rs: pallet_scheduler::Config, MaxScheduledPerBlock, MaximumSchedulerWeight", "pallets/payments/src/lib.rs: request_refund, dispute_refund"]}
{"id": "C155", "title": "What is withdrawn is not carried out", "statement": "A task that has not been carried out can be withdrawn by its name, and is then not carried out.", "quantifier": "every history of calls and blocks", "why_tests_cant": "histories of any length, tasks that withdraw tasks, all weights", "anchors": ["runtime/kreivo/src/lib.rs: pallet_scheduler::Config, MaxScheduledPerBlock, MaximumSchedulerWeight", "pallets/payments/src/lib.rs: dispute_refund (cancel_named)"]}
{"id": "C156", "title": "What is due is carried out soon", "statement": "A task that fits into what the scheduler may use is carried out in its block; if not, then by the time as many blocks have passed as tasks wait for that block, once older ones are done.", "quantifier": "every history, whatever other tasks do and weigh", "why_tests_cant": "histories of any length, all weights and priorities", "anchors": ["runtime/kreivo/src/lib.rs: pallet_scheduler::Config, MaxScheduledPerBlock, MaximumSchedulerWeight", "pallets/payments/src/lib.rs: request_refund (priority)"]}
{"id": "C157", "title": "No call is too heavy", "statement": "Every call about payments, communities and memberships, as large as its arguments may be and also when dispatched as a community's account, fits into a block in which hooks used no more than 29.5 percent, and into what the scheduler may use in a block.", "quantifier": "every call with arguments within their limits, every transaction length and use by hooks", "why_tests_cant": "all lengths of remarks, amounts of memberships and loads of the block", "anchors": ["runtime/kreivo/src/weights/pallet_payments.rs: pay", "runtime/kreivo/src/weights/pallet_communities_manager.rs: register, create_memberships", "runtime/kreivo/src/weights/pallet_communities.rs: all calls", "runtime/kreivo/src/configuration/system_support.rs: RuntimeBlockWeights", "pallets/communities-manager/src/lib.rs: create_memberships"]}
{"id": "C158", "title": "What is approved is carried out", "statement": "A decision that a referendum of the collective or of a community approved is carried out, once the block it is due in has come, as it was proposed.", "quantifier": "every history of referenda of both kinds, every state of the scheduler", "why_tests_cant": "all histories, numbers of referenda and tasks of others", "anchors": ["runtime/kreivo/src/collective/governance.rs: pallet_referenda::Config<KreivoReferendaInstance> (Scheduler)", "runtime/kreivo/src/communities/governance.rs: pallet_referenda::Config<CommunityReferendaInstance> (Scheduler)", "runtime/kreivo/src/lib.rs: pallet_scheduler::Config, MaxScheduledPerBlock, MaximumSchedulerWeight"]}
{"id": "C159", "title": "Nobody acts in another's name", "statement": "A call runs in the name of an account only if the account signed the transaction, the message comes from a place whose account it is, it is the account of a community and the community's manager has it dispatched, or the collective decided it as root.", "quantifier": "every history of transactions, remote calls, referenda and scheduled tasks, every account and call", "why_tests_cant": "histories of any length, calls nested to any depth", "anchors": ["runtime/kreivo/src/xcm_config.rs: XcmOriginToTransactDispatchOrigin, LocationToAccountId", "pallets/communities/src/lib.rs: dispatch_as_account", "runtime/kreivo/src/collective/tracks.rs: tracks"]}
{"id": "C160", "title": "The collective alone spends what the treasury holds", "statement": "What the treasury holds leaves it only by a decision of the collective, and the collective can decide so.", "quantifier": "every history of transactions, remote calls and decisions, every message from another chain", "why_tests_cant": "histories of any length, messages of any length and origin", "anchors": ["runtime/kreivo/src/lib.rs: TreasuryAccount, pallet_treasury::Config (SpendOrigin, RejectOrigin)", "runtime/kreivo/src/xcm_config.rs: LocationToAccountId (AccountId32FromRelay)", "chain-spec-generator/src/spec/local.rs"]}
{"id": "C161", "title": "Referenda of the collective end in time", "statement": "A referendum of the collective is over six days after its submission: unless decided about within two days it is given up, and what is decided about is approved or rejected four days later.", "quantifier": "every history of transactions, votes, referenda and scheduled tasks", "why_tests_cant": "histories of any length, every order of votes and looks of the scheduler", "anchors": ["runtime/kreivo/src/collective/tracks.rs: tracks (decision_period, confirm_period)", "runtime/kreivo/src/collective/governance.rs: pallet_referenda::Config (UndecidingTimeout, Scheduler)"]}
{"id": "C162", "title": "A credential logs in once, whom it was made for", "statement": "A credential a user's device signed to log in lets in the account it was made for and no other, once, and only in the few blocks after the one it refers to.", "quantifier": "every history of blocks, devices and attempts to log in, every credential and account", "why_tests_cant": "all credentials, onlookers, blocks referred to incl. later ones", "anchors": ["runtime/kreivo/src/configuration/system_support.rs: UnincludedBlockHashChallenger, pallet_pass::Config (Authenticator)"]}
{"id": "C163", "title": "Members vote whatever memberships others give out", "statement": "Whatever ids the memberships of other communities have, and whoever holds them, a member can vote in the running polls of their community and take the vote back; a vote counts in a poll of that community only, with the rank of that membership, and votes of equal ids in different communities do not replace each other.", "quantifier": "every history of votes and memberships of any number of communities, every order in which storage lists them", "why_tests_cant": "all ids, also such that repeat across communities, histories of any length", "anchors": ["pallets/communities/src/lib.rs: vote, remove_vote", "pallets/communities/src/functions.rs: try_vote, try_remove_vote", "runtime/kreivo/src/communities/memberships.rs: pallet_nfts::Config<CommunityMembershipsInstance>"]}
{"id": "C164", "title": "Votes of former members stop counting", "statement": "A vote cast with a membership counts in a running poll only while the voter holds that membership; when it is taken from them, what the vote froze comes free.", "quantifier": "every history of calls by anyone, every way of deciding, every poll and membership", "why_tests_cant": "all orders of votes, removals and memberships given out again", "anchors": ["pallets/communities/src/lib.rs: remove_member, add_member, vote, remove_vote, unlock", "pallets/communities/src/functions.rs: try_vote, try_remove_vote, update_locks"]}
{"id": "C165", "title": "Memberships on sale are sold for their price, once", "statement": "A membership that is on sale stays its owner's at its price until somebody buys it, who pays exactly the price to the owner whatever they bid, and it is not sold again unless the new owner offers it; each membership the collective creates can be bought by anyone who has its price.", "quantifier": "every history of calls, creations and sales, every item and bid", "why_tests_cant": "histories of any length, all orders of bids", "anchors": ["pallets/communities-manager/src/lib.rs: create_memberships", "runtime/kreivo/src/communities/memberships.rs: pallet_nfts::Config (ForceOrigin, CreateOrigin, Locker)"]}
{"id": "C166", "title": "Memberships are created by the collective", "statement": "A membership comes to be only by a decision of the collective.", "quantifier": "every history of calls by anyone, signed or dispatched as a community's account", "why_tests_cant": "histories of any length, all callers and collections", "anchors": ["pallets/communities-manager/src/lib.rs: register, create_memberships", "runtime/kreivo/src/communities/memberships.rs: pallet_nfts::Config (ForceOrigin, CreateOrigin, Locker)", "runtime/kreivo/src/communities/mod.rs: MembershipsCollectionId, pallet_communities_manager::Config", "pallets/communities/src/lib.rs: dispatch_as_account"]}
{"id": "C167", "title": "What is deposited for a referendum comes back", "statement": "What is deposited for a referendum is set aside of who deposits it, in exactly the amount its track asks for; once the referendum is over each deposit comes back in full and once to who made it, at anyone's call, unless the referendum was killed, and then the treasury gets exactly both deposits; nobody else's money is touched.", "quantifier": "every history of submissions, deposits, endings, kills, refunds and changes of other reserves and balances, in both kinds of referenda", "why_tests_cant": "histories of any length, deposits of several referenda and of other pallets on one account", "anchors": ["runtime/kreivo/src/collective/governance.rs: pallet_referenda::Config (SubmissionDeposit, Slash, CancelOrigin, KillOrigin)", "runtime/kreivo/src/communities/governance.rs: pallet_referenda::Config (SubmissionDeposit, Slash, CancelOrigin, KillOrigin)", "runtime/kreivo/src/collective/tracks.rs: TracksInfo::tracks (decision_deposit)"]}
{"id": "C168", "title": "A community always has an administrator", "statement": "Once registered, a community always has an administrator, who stays until they name a successor or the community decides otherwise.", "quantifier": "every history of transactions, messages, referenda and decisions, every community and administrator", "why_tests_cant": "histories of any length, administrators of other communities acting in between", "anchors": ["pallets/communities/src/lib.rs: set_admin_origin, set_decision_method", "pallets/communities/src/functions.rs: register", "pallets/communities/src/origin.rs: EnsureCommunity", "runtime/kreivo/src/communities/mod.rs: pallet_communities::Config (AdminOrigin)"]}
{"id": "C169", "title": "A chain's specification is the one its name says", "statement": "Asked for a chain by one of its names, the generator of specifications writes that chain's; asked for anything that ends in .json, the one in that file; otherwise it fails, naming every chain it knows.", "quantifier": "every name asked for, raw or not, every order of the table of chains", "why_tests_cant": "any text can be asked for", "anchors": ["chain-spec-generator/src/main.rs: main"]}
{"id": "C170", "title": "What a delayed proxy does was announced and could be stopped", "statement": "What is done through a proxy with a delay was announced by the delegate at least that long before, is done once per announcement, and not at all if the account, or whoever guards it with a CancelProxy, rejects it in the meantime.", "quantifier": "every history of transactions by anyone, nested in proxies and batches, and of blocks; every call", "why_tests_cant": "histories and nesting of any depth", "anchors": ["runtime/kreivo/src/impls.rs: ProxyType", "runtime/kreivo/src/lib.rs: pallet_proxy::Config"]}
{"id": "C171", "title": "Who gives a proxy with a delay has that long to reconsider", "statement": "Through a proxy an account gives with a delay nothing happens before the delay has passed since it was given.", "quantifier": "every history of transactions by anyone, nested in proxies and batches, and of blocks; every call", "why_tests_cant": "histories and nesting of any depth", "anchors": ["runtime/kreivo/src/impls.rs: ProxyType", "runtime/kreivo/src/lib.rs: pallet_proxy::Config"]}
{"id": "C172", "title": "A group's account acts exactly when enough of the group agree", "statement": "A call is made in the name of an account of several signatories only if as many different signatories as the account asks for agreed to that very call, each agreement counting for one call; enough of them can always bring it about, and the deposit goes back to who made it.", "quantifier": "every history of transactions by anyone, nested in batches and other groups' accounts; every group, number and call", "why_tests_cant": "histories, groups and nesting of any size", "anchors": ["runtime/kreivo/src/lib.rs: pallet_multisig::Config, DepositBase, DepositFactor"]}
{"id": "C173", "title": "Who approved can withdraw the approval until the call is made", "statement": "A signatory who approved a call of a group's account can take the approval back as long as the call was not made.", "quantifier": "every state, every call signed by anyone", "why_tests_cant": "all states and calls", "anchors": ["runtime/kreivo/src/lib.rs: pallet_multisig::Config"]}
{"id": "C174", "title": "What is reserved for proxies comes back", "statement": "What is reserved of an account for its proxies and announcements is at all times exactly what so many of them cost, over and above what others reserved of it, and comes back as they go. No call of the pallet changes what an account has in sum.", "quantifier": "every history of adding, removing and using proxies and announcements, making and closing accounts without keys, nested in batches and proxies, with the chain reserving for other purposes in between", "why_tests_cant": "reserves are anonymous: whether books stay in order depends on the whole history of several accounts", "anchors": ["runtime/kreivo/src/lib.rs: pallet_proxy::Config, ProxyDepositBase, ProxyDepositFactor, AnnouncementDepositBase, AnnouncementDepositFactor", "runtime/kreivo/src/constants.rs: deposit"]}
{"id": "C175", "title": "Accounts without keys", "statement": "An account made without a key is used by who made it and by those it was opened to, until that ends, and by nobody else. Making one never takes over an account that has proxies, nobody else can make the same one, and closing it favours its maker only.", "quantifier": "every history of transactions, nested calls and accounts", "why_tests_cant": "who can act depends on all that was given and ended before", "anchors": ["runtime/kreivo/src/impls.rs: ProxyType, InstanceFilter", "runtime/kreivo/src/lib.rs: pallet_proxy::Config"]}
{"id": "C176", "title": "Accounts without keys can be closed", "statement": "Who makes an account without keys can close it and have the deposit for it back.", "quantifier": "every type of proxy the account is made for, and every later history", "why_tests_cant": "that no sequence of calls closes an account is a statement on all of them", "anchors": ["runtime/kreivo/src/impls.rs: ProxyType::is_superset, InstanceFilter::filter", "runtime/kreivo/src/lib.rs: pallet_proxy::Config"]}
{"id": "C177", "title": "What has not vested is kept", "statement": "An account owns at all times at least what has not vested of all the schedules it was given, whatever it spends, has reserved or merges.", "quantifier": "every history of schedules given, merged and called for, transfers, reserves and blocks; every account and block", "why_tests_cant": "histories of any length, schedules of any shape, merged in any order", "anchors": ["runtime/kreivo/src/configuration/monetary_stuff.rs: pallet_vesting::Config, MinVestedTransfer, UnvestedFundsAllowedWithdrawReasons, MAX_VESTING_SCHEDULES"]}
{"id": "C178", "title": "What has vested can be used", "statement": "Who was given schedules can, having called for it, transfer all they have free but what has not vested yet, whoever calls for it.", "quantifier": "every history and amount", "why_tests_cant": "all histories, amounts and blocks", "anchors": ["runtime/kreivo/src/configuration/monetary_stuff.rs: pallet_vesting::Config, MinVestedTransfer, UnvestedFundsAllowedWithdrawReasons, MAX_VESTING_SCHEDULES"]}
{"id": "C179", "title": "Nobody locks what is another's", "statement": "What an account can use it can still use after whatever others do, also when others give it vesting schedules; and others cannot for good keep it from being given one.", "quantifier": "every history and every next step by others; every account and amount", "why_tests_cant": "all histories, up to the bound on schedules", "anchors": ["runtime/kreivo/src/configuration/monetary_stuff.rs: pallet_vesting::Config, MinVestedTransfer, UnvestedFundsAllowedWithdrawReasons, MAX_VESTING_SCHEDULES"]}
{"id": "C180", "title": "Texts noted on chain stay", "statement": "The text of a call that somebody noted and pays for stays on chain until they take it back or root removes it; one that was there when it was asked for stays until all that was asked for is withdrawn, whoever takes it back; and what the chain has for a hash is the text with that hash.", "quantifier": "every history of noting, taking back, asking for and withdrawing, by anyone; every text", "why_tests_cant": "histories of any length, the same text noted and asked for by several", "anchors": ["runtime/kreivo/src/lib.rs: pallet_preimage::Config, PreimageBaseDeposit, PreimageByteDeposit", "runtime/kreivo/src/lib.rs: pallet_scheduler::Config, MaxScheduledPerBlock, MaximumSchedulerWeight (Preimages)"]}
{"id": "C181", "title": "Deposits for texts come back", "statement": "What is on hold of an account for texts is at all times exactly what the texts it pays for cost; it comes back in full as one is taken back by who paid or by root, which never fails; others cannot take it back, and nobody gains, loses or is touched by what others do.", "quantifier": "every history, account and set of texts", "why_tests_cant": "histories of any length, sums over any number of texts", "anchors": ["runtime/kreivo/src/lib.rs: pallet_preimage::Config, PreimageBaseDeposit, PreimageByteDeposit", "runtime/kreivo/src/constants.rs: deposit"]}
{"id": "C182", "title": "Whoever pays for a text has it on chain", "statement": "Whoever has the deposit for a text can note it, and then has it on chain until they take it back.", "quantifier": "every history of noting, taking back, asking for and withdrawing; every account and text", "why_tests_cant": "all histories, also such in which others noted the same text", "anchors": ["runtime/kreivo/src/lib.rs: pallet_preimage::Config, PreimageBaseDeposit, PreimageByteDeposit"]}
{"id": "C183", "title": "Who can take tokens of an asset", "statement": "What an account has of an asset gets less only as it transfers it itself, a delegate does within what is approved, the asset's admin does, another pallet takes it, or the asset is being destroyed; by what was asked for, or by all there is if less than the minimum would be left. What is frozen stays, as does all of closed accounts and of a frozen asset, unless the asset is being destroyed. What is transferred arrives, and nothing else moves.", "quantifier": "every state and every next step: calls by anyone and root, and what other pallets give, take and freeze", "why_tests_cant": "all states, callers and amounts", "anchors": ["runtime/kreivo/src/configuration/monetary_stuff.rs: pallet_assets::Config, pallet_assets_freezer::Config, ApprovalDeposit, AssetsForceOrigin"]}
{"id": "C184", "title": "Delegates keep to what was approved", "statement": "A delegate takes of an account's tokens at most what the account approved, the last approval counting; nothing once the approval is withdrawn, until the account approves again; and it stands, and can be used, until withdrawn, used up, or ended by the asset's admin, root or the asset's destruction.", "quantifier": "every history of approvals, transfers, withdrawals and changes of the asset; every delegate and amount", "why_tests_cant": "histories of any length, approvals given and used in any order", "anchors": ["runtime/kreivo/src/configuration/monetary_stuff.rs: pallet_assets::Config, pallet_assets_freezer::Config, ApprovalDeposit, AssetsForceOrigin"]}
{"id": "C185", "title": "Deposits for approvals come back", "statement": "An account has the deposit reserved exactly once for each delegate it named. It gets it back as it withdraws the approval, as the delegate uses it up, or as the asset is destroyed; an asset is not gone before.", "quantifier": "every history, account and set of delegates", "why_tests_cant": "sums over any number of delegates, histories of any length", "anchors": ["runtime/kreivo/src/configuration/monetary_stuff.rs: pallet_assets::Config, pallet_assets_freezer::Config, ApprovalDeposit, AssetsForceOrigin"]}
{"id": "C186", "title": "Who decides about an asset", "statement": "Owner, issuer, admin, freezer and minimum of an asset change only as root decides or, but for the minimum, as its owner does, and end only when it has been destroyed with no account and no approval left. Its accounts are closed by its freezer and opened by its admin. It is frozen by its freezer, thawed by its admin, destroyed by its owner, or by root. How much there is of it changes only as its issuer mints, its admin burns or pallets give and take, and is what accounts have of it together.", "quantifier": "every state and next step; for the sum, every history and any set of holders", "why_tests_cant": "all states, callers and histories", "anchors": ["runtime/kreivo/src/configuration/monetary_stuff.rs: pallet_assets::Config, pallet_assets_freezer::Config, ApprovalDeposit, AssetsForceOrigin"]}
{"id": "C187", "title": "Who can take native tokens, and who gets them", "statement": "What an account has of the native token gets less only as it transfers or burns it itself, root moves it or sets it, or another pallet takes it or slashes what is set aside; by what was asked for, or by all there is if less than the minimum would be left, which cannot happen if it asked to be kept alive. What is frozen stays; what is transferred arrives, and nothing else moves. An account gets more only by what is sent to it, what root sets, or what another pallet gives.", "quantifier": "every history and every next step: calls by anyone and root, and what other pallets give, take, set aside, release, slash and freeze", "why_tests_cant": "all histories, callers and amounts", "anchors": ["runtime/kreivo/src/configuration/monetary_stuff.rs: pallet_balances::Config, ExistentialDeposit, DustRemoval", "runtime/kreivo/src/constants.rs: EXISTENTIAL_DEPOSIT"]}
{"id": "C188", "title": "What is free can be used", "statement": "An account can transfer what it has free of the native token as long as the minimum and what is frozen stay and the receiver has the minimum then; all of it if nothing is set aside or frozen and nobody depends on the account. Sending all sends just that, and who asks to be kept alive is.", "quantifier": "every history, account, receiver and amount", "why_tests_cant": "all histories and amounts", "anchors": ["runtime/kreivo/src/configuration/monetary_stuff.rs: pallet_balances::Config, ExistentialDeposit, DustRemoval", "runtime/kreivo/src/constants.rs: EXISTENTIAL_DEPOSIT"]}
{"id": "C189", "title": "How much there is of the native token", "statement": "Unless root sets it, as much of the native token is issued as accounts have together. Transfers leave it as it is, but for less than the minimum that is lost when the sender's account goes. No account is left with less than the minimum free and nothing set aside.", "quantifier": "every history and any set of holders", "why_tests_cant": "sums over any number of accounts, histories of any length", "anchors": ["runtime/kreivo/src/configuration/monetary_stuff.rs: pallet_balances::Config, ExistentialDeposit, DustRemoval", "runtime/kreivo/src/constants.rs: EXISTENTIAL_DEPOSIT"]}
{"id": "C190", "title": "Tokens of assets can be used", "statement": "While an asset is live and a holder's account open, the holder can transfer all they have of it but the minimum and what is frozen, and all there is if nothing is frozen, to any account that may receive them or that comes into being with them.", "quantifier": "every history, asset, holder, receiver and amount", "why_tests_cant": "all histories and amounts", "anchors": ["runtime/kreivo/src/configuration/monetary_stuff.rs: pallet_assets::Config, pallet_assets_freezer::Config, ApprovalDeposit, AssetsForceOrigin"]}
