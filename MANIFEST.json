{
 "claims": [
  {
   "property": "C01",
   "status": "proved",
   "theorems": [
    "C01_u64_bijection"
   ],
   "note": ""
  },
  {
   "property": "C02",
   "status": "proved",
   "theorems": [
    "C02_scale_codec"
   ],
   "note": ""
  },
  {
   "property": "C03",
   "status": "proved",
   "theorems": [
    "C03_text_roundtrip",
    "C03_text_number",
    "C03_constructor"
   ],
   "note": "Includes the base58 carry loops for inputs of every length; no panic, 8..11 characters."
  },
  {
   "property": "C04",
   "status": "partial",
   "theorems": [
    "C04_parse_never_panics_refuted",
    "C04_parse_never_panics_partial",
    "C04_constructor_partial"
   ],
   "note": "False of the code: a dash plus more than 12 other bytes slices past the 12-byte buffer (payment_id.rs:104-105). The _partial theorem says exactly which texts crash."
  },
  {
   "property": "C05",
   "status": "partial",
   "theorems": [
    "C05_constructor_refuted",
    "C05_text_canonical_refuted",
    "C05_text_canonical_partial"
   ],
   "note": "False of the code: texts decoding to fewer than 8 bytes are zero padded (payment_id.rs:108-110), so \"2\" and \"5R\" name the same payment. Proved for texts that decode to all 8 bytes."
  },
  {
   "property": "C06",
   "status": "partial",
   "theorems": [
    "C06_ids_distinct_kreivo_partial",
    "C06_ids_unique_refuted",
    "C06_ids_unique_partial"
   ],
   "note": "False in general: `idx as u16` (payment_id.rs:82). Proved for extrinsic indices below 65536, and for whole histories (C06_ids_distinct_kreivo_partial)."
  },
  {
   "property": "C07",
   "status": "proved",
   "theorems": [
    "C07_asset_to_location_roundtrip",
    "C07_numbers"
   ],
   "note": ""
  },
  {
   "property": "C08",
   "status": "proved",
   "theorems": [
    "C08_location_to_asset_faithful"
   ],
   "note": ""
  },
  {
   "property": "C09",
   "status": "partial",
   "theorems": [
    "C09_convert_never_panics_refuted",
    "C09_convert_never_panics_partial"
   ],
   "note": "False of the code: a location with parents 0 and interior [PalletInstance 13, GeneralIndex i], i > u32::MAX, hits the expect in the conversion; XCM asset matching can be given such a location remotely. The _partial theorem gives the exact set of crashing locations."
  },
  {
   "property": "C10",
   "status": "proved",
   "theorems": [
    "C10_asset_scale_codec"
   ],
   "note": ""
  },
  {
   "property": "C11",
   "status": "proved",
   "theorems": [
    "C11_community_accounts_distinct"
   ],
   "note": ""
  },
  {
   "property": "C12",
   "status": "partial",
   "theorems": [
    "C12_only_own_account_refuted",
    "C12_only_own_account_partial"
   ],
   "note": "False of the code: AccountToCommunityId ignores the pallet id (communities/mod.rs:47-51), so the treasury account, sub-account 0 of another pallet, is taken for community 0. The _partial theorem says exactly which accounts are taken for which community."
  },
  {
   "property": "C13",
   "status": "proved",
   "theorems": [
    "C13_address_lookup"
   ],
   "note": ""
  },
  {
   "property": "C14",
   "status": "partial",
   "theorems": [
    "C14_plurality_agrees_refuted",
    "C14_plurality_agrees_partial"
   ],
   "note": "False for indices above 65535, which saturate (xcm_config/communities.rs:20). Proved for all community ids."
  },
  {
   "property": "C15",
   "status": "proved",
   "theorems": [
    "C15_funds_conserved"
   ],
   "note": "Dust: at most two remainders below the minimum balance, only for accept, cancel and resolve."
  },
  {
   "property": "C16",
   "status": "proved",
   "theorems": [
    "C16_escrow_backed"
   ],
   "note": ""
  },
  {
   "property": "C17",
   "status": "partial",
   "theorems": [
    "C17_no_stranded_escrow_refuted",
    "C17_no_stranded_escrow_partial"
   ],
   "note": "False of the code: accept_and_pay does not check the state (lib.rs:358-389), so accepting a created payment leaves its escrow on hold forever. Proved for histories that never accept a payment with funds in escrow."
  },
  {
   "property": "C18",
   "status": "partial",
   "theorems": [
    "C18_life_cycle_refuted",
    "C18_life_cycle_partial"
   ],
   "note": "False of the code for accept_and_pay (no state check). Proved for every other step."
  },
  {
   "property": "C19",
   "status": "partial",
   "theorems": [
    "C19_accept_only_requests_refuted",
    "C19_accept_only_requests_partial"
   ],
   "note": "False of the code: no state check in accept_and_pay (lib.rs:358-389)."
  },
  {
   "property": "C20",
   "status": "partial",
   "theorems": [
    "C20_finished_never_pays_refuted",
    "C20_finished_never_pays_partial"
   ],
   "note": "False of the code: accept_and_pay on a finished payment pays again. All other calls on a finished payment have no effect."
  },
  {
   "property": "C21",
   "status": "partial",
   "theorems": [
    "C21_who_may_act_kreivo_partial",
    "C21_who_may_act_partial",
    "C21_who_may_change_partial",
    "C21_who_may_act_refuted"
   ],
   "note": "False of the code: ids repeat within one extrinsic (see C27), and the refund of one payment then ends the other. C21_who_may_act_partial is the full claim for histories whose payment ids are all different (on Kreivo: no extrinsic makes two payments, C21_who_may_act_kreivo_partial); in all others the weaker C21_who_may_change_partial holds."
  },
  {
   "property": "C22",
   "status": "proved",
   "theorems": [
    "C22_cancel_undoes_pay"
   ],
   "note": "Up to dust of the beneficiary below the minimum balance."
  },
  {
   "property": "C23",
   "status": "proved",
   "theorems": [
    "C23_pay_exact",
    "C23_release_exact"
   ],
   "note": "For fee schedules whose sums fit in a balance (u128)."
  },
  {
   "property": "C24",
   "status": "partial",
   "theorems": [
    "C24_dispute_exact_kreivo_partial",
    "C24_dispute_exact_refuted",
    "C24_dispute_exact_partial"
   ],
   "note": "False of the pallet for fee schedules naming one account with both flags (types.rs:135-139 keeps the first flag). Proved for consistent flags, hence for every dispute on Kreivo (C24_dispute_exact_kreivo_partial)."
  },
  {
   "property": "C25",
   "status": "partial",
   "theorems": [
    "C25_percent_beneficiary_refuted",
    "C25_percent_beneficiary_partial"
   ],
   "note": "False of the code when the sender is favoured: percent_beneficiary is sent to the sender (lib.rs:649-668). Proved when the beneficiary is favoured."
  },
  {
   "property": "C26",
   "status": "partial",
   "theorems": [
    "C26_refund_timing_refuted",
    "C26_refund_timing_partial"
   ],
   "note": "Last part false of the code: the sender can end a disputed payment with accept_and_pay. All other parts proved."
  },
  {
   "property": "C27",
   "status": "partial",
   "theorems": [
    "C27_stale_refund_kreivo_partial",
    "C27_stale_refund_refuted",
    "C27_stale_refund_partial"
   ],
   "note": "False when two payments of one extrinsic share an id. Proved for histories whose ids are all different; on Kreivo if no extrinsic makes two payments."
  },
  {
   "property": "C28",
   "status": "proved",
   "theorems": [
    "C28_request_moves_nothing",
    "C28_request_creates"
   ],
   "note": ""
  },
  {
   "property": "C29",
   "status": "proved",
   "theorems": [
    "C29_accept_exact",
    "C29_parties_agree"
   ],
   "note": "For fee schedules whose sums fit in a balance."
  },
  {
   "property": "C30",
   "status": "partial",
   "theorems": [
    "C30_fee_summary_refuted",
    "C30_fee_summary_totals_partial",
    "C30_fee_summary_partial"
   ],
   "note": "Dispute part false of the code for an account listed with both flags; proved for consistent flags. Totals proved for all lists."
  },
  {
   "property": "C31",
   "status": "proved",
   "theorems": [
    "C31_payments_independent"
   ],
   "note": "Payments are identified by (sender, id) in storage; calls that name only the id act on the parties recorded last for it (see C27)."
  },
  {
   "property": "C32",
   "status": "proved",
   "theorems": [
    "C32_escrow_available",
    "C32_cancel_possible",
    "C32_release_possible"
   ],
   "note": "Cancel succeeds given the recorded parties are this payment's (true whenever ids are different, C29_parties_agree)."
  },
  {
   "property": "C33",
   "status": "proved",
   "theorems": [
    "C33_kreivo_fees",
    "C33_recorded_fees"
   ],
   "note": ""
  },
  {
   "property": "C34",
   "status": "proved",
   "theorems": [
    "C34_registration"
   ],
   "note": "On Kreivo `create` is not available (CreateOrigin is EnsureNever); communities are registered through the manager."
  },
  {
   "property": "C35",
   "status": "partial",
   "theorems": [
    "C35_one_admin_refuted",
    "C35_one_admin_partial"
   ],
   "note": "False of the code: set_admin_origin does not check that the new origin is free, so it can take the admin origin of another community, which is left without admin. Proved: never two admins for one community, admins administer existing communities."
  },
  {
   "property": "C36",
   "status": "proved",
   "theorems": [
    "C36_live_communities",
    "C36_communities_stay"
   ],
   "note": ""
  },
  {
   "property": "C37",
   "status": "partial",
   "theorems": [
    "C37_blocked_refuted",
    "C37_blocked_partial"
   ],
   "note": "False of the code: the community account stays authorised through AccountToCommunityId, which does not look at the community's state. Proved: no other origin is authorised. (Nothing in the repository blocks communities yet; force_state is modelled as a step.)"
  },
  {
   "property": "C38",
   "status": "partial",
   "theorems": [
    "C38_own_settings_refuted",
    "C38_own_settings_partial"
   ],
   "note": "False of the code: set_decision_method checks that the origin is an admin but takes the community from the argument. Proved for set_admin_origin, and that methods change only by calls of some admin."
  },
  {
   "property": "C39",
   "status": "proved",
   "theorems": [
    "C39_only_members_vote"
   ],
   "note": ""
  },
  {
   "property": "C40",
   "status": "partial",
   "theorems": [
    "C40_tally_is_the_votes_refuted",
    "C40_tally_is_the_votes_partial"
   ],
   "note": "False of the code when counters saturate (u32). Proved for histories whose weighted sums stay below 2^32."
  },
  {
   "property": "C41",
   "status": "partial",
   "theorems": [
    "C41_tally_after_changes_refuted",
    "C41_tally_after_changes_partial"
   ],
   "note": "False of the code: removal uses the current rank and method. Proved for the unweighted ayes."
  },
  {
   "property": "C42",
   "status": "partial",
   "theorems": [
    "C42_remove_undoes_refuted",
    "C42_remove_undoes_partial"
   ],
   "note": "False of the code when an account votes with two memberships in one poll (one lock per account and poll) or counters saturate; proved otherwise."
  },
  {
   "property": "C43",
   "status": "partial",
   "theorems": [
    "C43_revote_refuted",
    "C43_revote_partial"
   ],
   "note": "False of the code when counters saturate; proved otherwise, for any number of re-votes."
  },
  {
   "property": "C44",
   "status": "proved",
   "theorems": [
    "C44_locks_covered"
   ],
   "note": ""
  },
  {
   "property": "C45",
   "status": "partial",
   "theorems": [
    "C45_votes_backed_refuted",
    "C45_votes_backed_partial"
   ],
   "note": "False of the code when an account votes with two memberships in one poll; proved otherwise."
  },
  {
   "property": "C46",
   "status": "proved",
   "theorems": [
    "C46_unlock"
   ],
   "note": ""
  },
  {
   "property": "C47",
   "status": "partial",
   "theorems": [
    "C47_fractions_refuted",
    "C47_support_refuted",
    "C47_fractions_partial"
   ],
   "note": "False of the code: ayes+nays wraps in u32, and support is 100% when the maximum is zero. Proved otherwise; bounds proved for all tallies."
  },
  {
   "property": "C48",
   "status": "partial",
   "theorems": [
    "C48_membership_admin_refuted",
    "C48_membership_admin_partial",
    "C48_demote_event_refuted"
   ],
   "note": "False of the code: remove_member releases the named membership whoever holds it, add_member takes any membership of the community account, demote reports the old rank. The exact effects are proved."
  },
  {
   "property": "C49",
   "status": "proved",
   "theorems": [
    "C49_dispatch_as_account"
   ],
   "note": ""
  },
  {
   "property": "C50",
   "status": "proved",
   "theorems": [
    "C50_all_created",
    "C50_or_nothing"
   ],
   "note": ""
  },
  {
   "property": "C51",
   "status": "partial",
   "theorems": [
    "C51_memberships_refuted",
    "C51_memberships_partial",
    "C51_who_creates_partial"
   ],
   "note": "False of the code: the last id of the 32-bit range is minted but not counted in the event. Proved otherwise, with the exact effects."
  },
  {
   "property": "C52",
   "status": "partial",
   "theorems": [
    "C52_payments_refuted",
    "C52_detour_refuted",
    "C52_supersets_partial",
    "C52_keep_to_their_calls_partial"
   ],
   "note": "False of the code: NonTransfer admits the payments pallet, and other proxies can be used as a detour. Proved: superset order, Any, and that an account does only what one of its proxies is meant for; no balances or assets calls without a proxy that allows them."
  },
  {
   "property": "C53",
   "status": "proved",
   "theorems": [
    "C53_privilege_order",
    "C53_cancelling"
   ],
   "note": ""
  },
  {
   "property": "C54",
   "status": "proved",
   "theorems": [
    "C54_tracks",
    "C54_names"
   ],
   "note": ""
  },
  {
   "property": "C55",
   "status": "proved",
   "theorems": [
    "C55_fees_grow",
    "C55_rates",
    "C55_free_only_negligible"
   ],
   "note": "The extrinsic base weight (a constant of a dependency) is a parameter."
  },
  {
   "property": "C56",
   "status": "proved",
   "theorems": [
    "C56_deposits"
   ],
   "note": ""
  },
  {
   "property": "C57",
   "status": "partial",
   "theorems": [
    "C57_reserves_refuted",
    "C57_reserves_partial"
   ],
   "note": "False of the code: ReserveAssetsFrom ignores the origin, so asset hub assets are accepted from any chain. Proved: the exact condition, and the claim for all other assets."
  },
  {
   "property": "C58",
   "status": "proved",
   "theorems": [
    "C58_prefix"
   ],
   "note": ""
  },
  {
   "property": "C59",
   "status": "partial",
   "theorems": [
    "C59_origin_location_roundtrip_refuted",
    "C59_origin_location_roundtrip_partial"
   ],
   "note": "False for a single member, which becomes \"one member\" (origin.rs:157). Proved for all other origins that have a location; AtLeastRank has none."
  },
  {
   "property": "C60",
   "status": "partial",
   "theorems": [
    "C60_challenge_refuted",
    "C60_challenge_partial"
   ],
   "note": "False of the code: the hash of the current or a later block is zero and accepted. Proved: the exact condition, and the claim for all other challenges."
  },
  {
   "property": "C61",
   "status": "proved",
   "theorems": [
    "C61_location_accounts"
   ],
   "note": "Account locations may name any 32 bytes, including those of a derived account; who may speak for such a location is decided by the origin converters."
  },
  {
   "property": "C62",
   "status": "partial",
   "theorems": [
    "C62_part_is_not_the_whole_refuted",
    "C62_part_is_not_the_whole_partial"
   ],
   "note": "False of the code: AsSignedByCommunity and PluralityConvertsToCommunityAccountId ignore the subset / body part. (No code in the repository narrows an origin with with_subset yet.)"
  },
  {
   "property": "C63",
   "status": "partial",
   "theorems": [
    "C63_more_weighs_more_refuted",
    "C63_more_weighs_more_partial"
   ],
   "note": "False of the code: amounts are saturated to u32 planck. Proved below 2^32."
  },
  {
   "property": "C64",
   "status": "partial",
   "theorems": [
    "C64_counted_once_refuted",
    "C64_counted_once_partial"
   ],
   "note": "False of the code with two memberships of one account in one poll; proved otherwise."
  },
  {
   "property": "C65",
   "status": "partial",
   "theorems": [
    "C65_frozen_is_locked_refuted",
    "C65_frozen_is_locked_partial"
   ],
   "note": "False of the code with two memberships of one account in one poll; proved otherwise."
  },
  {
   "property": "C66",
   "status": "proved",
   "theorems": [
    "C66_voting_frame"
   ],
   "note": ""
  },
  {
   "property": "C67",
   "status": "proved",
   "theorems": [
    "C67_ended_polls_final"
   ],
   "note": ""
  },
  {
   "property": "C68",
   "status": "proved",
   "theorems": [
    "C68_only_members_propose"
   ],
   "note": ""
  },
  {
   "property": "C69",
   "status": "proved",
   "theorems": [
    "C69_own_track"
   ],
   "note": ""
  },
  {
   "property": "C70",
   "status": "proved",
   "theorems": [
    "C70_registration_price"
   ],
   "note": ""
  },
  {
   "property": "C71",
   "status": "proved",
   "theorems": [
    "C71_communities_complete",
    "C71_nothing_without_community"
   ],
   "note": ""
  },
  {
   "property": "C72",
   "status": "proved",
   "theorems": [
    "C72_names_are_text",
    "C72_bad_names_rejected"
   ],
   "note": ""
  },
  {
   "property": "C73",
   "status": "proved",
   "theorems": [
    "C73_default_thresholds",
    "C73_governance_thresholds"
   ],
   "note": ""
  },
  {
   "property": "C74",
   "status": "proved",
   "theorems": [
    "C74_who_pays"
   ],
   "note": ""
  },
  {
   "property": "C75",
   "status": "proved",
   "theorems": [
    "C75_contracts",
    "C75_contract_calls"
   ],
   "note": ""
  },
  {
   "property": "C76",
   "status": "proved",
   "theorems": [
    "C76_pass_registration"
   ],
   "note": ""
  },
  {
   "property": "C77",
   "status": "proved",
   "theorems": [
    "C77_collators"
   ],
   "note": ""
  },
  {
   "property": "C78",
   "status": "proved",
   "theorems": [
    "C78_no_escalation"
   ],
   "note": ""
  },
  {
   "property": "C79",
   "status": "proved",
   "theorems": [
    "C79_no_free_execution",
    "C79_execution"
   ],
   "note": ""
  },
  {
   "property": "C80",
   "status": "proved",
   "theorems": [
    "C80_remote_calls",
    "C80_heard"
   ],
   "note": ""
  },
  {
   "property": "C81",
   "status": "proved",
   "theorems": [
    "C81_senders_pay",
    "C81_siblings"
   ],
   "note": ""
  },
  {
   "property": "C82",
   "status": "partial",
   "theorems": [
    "C82_minting_refuted",
    "C82_minting_partial",
    "C82_siblings_partial"
   ],
   "note": "False of the code: any parachain that pays for its message is accepted as reserve of all asset hub assets. Proved for every asset but the relay chain's token (see C100) no place at or under the sender is accepted as reserve of."
  },
  {
   "property": "C83",
   "status": "proved",
   "theorems": [
    "C83_traps"
   ],
   "note": ""
  },
  {
   "property": "C84",
   "status": "proved",
   "theorems": [
    "C84_calls",
    "C84_siblings"
   ],
   "note": ""
  },
  {
   "property": "C85",
   "status": "partial",
   "theorems": [
    "C85_crash_refuted",
    "C85_crash_partial"
   ],
   "note": "False of the code: an asset location of this chain with an index above 32 bits panics. Proved for all messages that do not name such an asset."
  },
  {
   "property": "C86",
   "status": "proved",
   "theorems": [
    "C86_messages_end",
    "C86_end_is_final"
   ],
   "note": ""
  },
  {
   "property": "C87",
   "status": "proved",
   "theorems": [
    "C87_pay_first",
    "C87_price"
   ],
   "note": ""
  },
  {
   "property": "C88",
   "status": "proved",
   "theorems": [
    "C88_reserve_transfer",
    "C88_withdrawal",
    "C88_arrived"
   ],
   "note": ""
  },
  {
   "property": "C89",
   "status": "proved",
   "theorems": [
    "C89_local_programs"
   ],
   "note": ""
  },
  {
   "property": "C90",
   "status": "partial",
   "theorems": [
    "C90_only_root_refuted",
    "C90_only_root_partial"
   ],
   "note": "False of the code: whoever pays for a community creates any asset that does not exist yet, free of deposit. Proved: besides root only registrations and admins choosing an asset to vote with create assets, never touching existing ones."
  },
  {
   "property": "C91",
   "status": "partial",
   "theorems": [
    "C91_own_asset_refuted",
    "C91_own_asset_partial"
   ],
   "note": "False of the code: the pallet account that owns these assets is the account of community 0. Proved: through the pallet exactly those who stand for community 0 act as the owner."
  },
  {
   "property": "C92",
   "status": "proved",
   "theorems": [
    "C92_weight"
   ],
   "note": ""
  },
  {
   "property": "C93",
   "status": "partial",
   "theorems": [
    "C93_charge_refuted",
    "C93_charge_partial",
    "C93_deposits_partial"
   ],
   "note": "False of the code: deposits are charged at most 1000000000 time and no proof size, and All is weighed for 100 assets while 128 can be held. Proved for all other instructions while at most 100 assets are held, and what deposits are charged."
  },
  {
   "property": "C94",
   "status": "partial",
   "theorems": [
    "C94_free_refuted",
    "C94_free_partial"
   ],
   "note": "False of the code: instructions about empty lists of assets weigh nothing, yet some have messages sent. Proved: which messages weigh nothing, and that they change no balance, make no call, trap nothing."
  },
  {
   "property": "C95",
   "status": "proved",
   "theorems": [
    "C95_not_offered"
   ],
   "note": ""
  },
  {
   "property": "C96",
   "status": "proved",
   "theorems": [
    "C96_holding"
   ],
   "note": ""
  },
  {
   "property": "C97",
   "status": "proved",
   "theorems": [
    "C97_bounds"
   ],
   "note": ""
  },
  {
   "property": "C98",
   "status": "proved",
   "theorems": [
    "C98_calls"
   ],
   "note": ""
  },
  {
   "property": "C99",
   "status": "proved",
   "theorems": [
    "C99_first_purchase",
    "C99_monotone",
    "C99_terms",
    "C99_one_asset"
   ],
   "note": ""
  },
  {
   "property": "C100",
   "status": "partial",
   "theorems": [
    "C100_refund_refuted",
    "C100_assets_partial",
    "C100_no_request_partial",
    "C100_bound_partial"
   ],
   "note": "False of the code for the relay chain's token: a refund is the fee for the weight handed back, the fee is the larger of a time and a proof size fee, so handing both back one after the other refunds both. Proved: exact for assets; no message that asks for no refund and buys once gains; a bound on what any message gains."
  },
  {
   "property": "C101",
   "status": "proved",
   "theorems": [
    "C101_surplus",
    "C101_price",
    "C101_once"
   ],
   "note": ""
  },
  {
   "property": "C102",
   "status": "partial",
   "theorems": [
    "C102_covered_refuted",
    "C102_outweighs_refuted",
    "C102_bound_partial",
    "C102_unlock_partial"
   ],
   "note": "False of the code: taking back or unlocking a vote goes through all vote locks of the account, of which there is no bound, at a constant weight. Proved: at most the locks of one account are read, those that remain when unlocking."
  },
  {
   "property": "C103",
   "status": "partial",
   "theorems": [
    "C103_at_most_partial",
    "C103_at_least_partial",
    "C103_failure_partial",
    "C103_free_partial",
    "C103_overhead_refuted",
    "C103_failed"
   ],
   "note": "False of the code in one respect: if the dispatched call reports the weight it used, that is all that is charged, nothing for the dispatch itself. The rest is proved."
  },
  {
   "property": "C104",
   "status": "proved",
   "theorems": [
    "C104_in_full",
    "C104_grows",
    "C104_least",
    "C104_due",
    "C104_nothing"
   ],
   "note": ""
  },
  {
   "property": "C105",
   "status": "proved",
   "theorems": [
    "C105_included",
    "C105_settled",
    "C105_cost",
    "C105_never_more"
   ],
   "note": ""
  },
  {
   "property": "C106",
   "status": "proved",
   "theorems": [
    "C106_included",
    "C106_settled",
    "C106_cost"
   ],
   "note": ""
  },
  {
   "property": "C107",
   "status": "proved",
   "theorems": [
    "C107_nothing_unpaid"
   ],
   "note": ""
  },
  {
   "property": "C108",
   "status": "proved",
   "theorems": [
    "C108_query"
   ],
   "note": ""
  },
  {
   "property": "C109",
   "status": "partial",
   "theorems": [
    "C109_carried_out_refuted",
    "C109_when_carried_out_partial",
    "C109_when_carried_out_kreivo_partial"
   ],
   "note": "False of the code: the fee of the beneficiary must come out of what they are left with, so a beneficiary without free funds blocks every decision that leaves them less than their fee (on Kreivo more than 97% for the sender). Proved: exactly when a decision can be carried out."
  },
  {
   "property": "C110",
   "status": "partial",
   "theorems": [
    "C110_refund_paid_refuted",
    "C110_lost_for_good_partial",
    "C110_refund_paid_partial"
   ],
   "note": "False of the code: if the ledger refuses the transfer in the block of the refund, the task is used up and nothing but the beneficiary can bring the refund about. Proved: paid exactly, in the announced block, if the ledger refuses nothing, ids are distinct and the scheduler drops no task."
  },
  {
   "property": "C111",
   "status": "partial",
   "theorems": [
    "C111_no_record_refuted",
    "C111_cancelled_gone_partial"
   ],
   "note": "False of the code: completed payments stay in storage for ever. Proved for cancelled and refunded ones."
  },
  {
   "property": "C112",
   "status": "partial",
   "theorems": [
    "C112_only_accepted_partial",
    "C112_only_accepted_refuted"
   ],
   "note": "Proved as long as the id of the request is not handed out again; false otherwise."
  },
  {
   "property": "C113",
   "status": "partial",
   "theorems": [
    "C113_events_tell_partial",
    "C113_one_event_partial",
    "C113_events_tell_refuted"
   ],
   "note": "Proved for histories in which ids are not repeated; false otherwise: events name neither sender nor beneficiary."
  },
  {
   "property": "C114",
   "status": "partial",
   "theorems": [
    "C114_events_tell_votes_refuted",
    "C114_events_tell_votes_partial"
   ],
   "note": "False of the code: events name the account and not the membership voted with. Proved while nobody uses two memberships in one poll and nobody replaces or takes back the vote of a previous holder."
  },
  {
   "property": "C115",
   "status": "partial",
   "theorems": [
    "C115_events_true_refuted",
    "C115_events_true_partial"
   ],
   "note": "False of remove_member (names an account that need not hold the membership) and demote (tells the old rank). Proved for all other calls."
  },
  {
   "property": "C116",
   "status": "proved",
   "theorems": [
    "C116_privileged_decided"
   ],
   "note": "For all histories of the governance model: transactions, messages from other chains, scheduled tasks, nested calls."
  },
  {
   "property": "C117",
   "status": "partial",
   "theorems": [
    "C117_governable_refuted",
    "C117_never_again_refuted",
    "C117_governable_partial"
   ],
   "note": "False of the code: with nobody of rank 1 or more (as in the genesis the repository writes) no call is ever dispatched as root again and nobody is ever promoted. Proved: while anyone has rank 1 or more they can have any call dispatched as root."
  },
  {
   "property": "C118",
   "status": "proved",
   "theorems": [
    "C118_at_most_once_as_proposed"
   ],
   "note": "Both instances of referenda."
  },
  {
   "property": "C119",
   "status": "proved",
   "theorems": [
    "C119_ended_for_good",
    "C119_community_origin"
   ],
   "note": "Both instances of referenda."
  },
  {
   "property": "C120",
   "status": "partial",
   "theorems": [
    "C120_member_ayes_refuted",
    "C120_member_ayes_partial"
   ],
   "note": "False of the code if the track settings, chosen freely by whoever registers the community, want no approval. Proved for settings that want any."
  },
  {
   "property": "C121",
   "status": "partial",
   "theorems": [
    "C121_outvoted_refuted",
    "C121_tallies_partial",
    "C121_majority_partial"
   ],
   "note": "Proved while at most 65537 members vote in a referendum and ranks are u16. Beyond that it is refuted: the counters are 32 bits and their sum wraps around, so that one aye of rank 1 against 65537 nays of the highest rank is approved."
  },
  {
   "property": "C122",
   "status": "proved",
   "theorems": [
    "C122_ranks_by_root"
   ],
   "note": "Every step from every state."
  },
  {
   "property": "C123",
   "status": "proved",
   "theorems": [
    "C123_in_time",
    "C123_collective_takes"
   ],
   "note": "Settings of the track are those at each look; no assumption that they stay."
  },
  {
   "property": "C124",
   "status": "partial",
   "theorems": [
    "C124_share_refuted",
    "C124_share_partial"
   ],
   "note": "False of the code: the support wanted for root falls to nothing by the end of the decision period, so one member of rank 1 alone can have any call dispatched as root. Proved: the share wanted falls evenly from all to none over the four days of the decision period."
  },
  {
   "property": "C125",
   "status": "partial",
   "theorems": [
    "C125_at_most_once_refuted",
    "C125_feeless_refuted",
    "C125_at_most_once_partial",
    "C125_mortal_partial"
   ],
   "note": "False of the code: an account that is reaped loses its nonce, so that a transaction without an end can be submitted again once the account exists again; and for calls that are declared feeless nonces are not checked at all. Proved: any other repeat takes more than four thousand million transactions of the same signer in between; repeats of a mortal transaction are less than its period apart."
  },
  {
   "property": "C126",
   "status": "proved",
   "theorems": [
    "C126_in_order"
   ],
   "note": "Nonces wrap at 32 bits, as in the code."
  },
  {
   "property": "C127",
   "status": "proved",
   "theorems": [
    "C127_only_as_signed",
    "C127_eras"
   ],
   "note": "Signatures are taken to be unforgeable."
  },
  {
   "property": "C128",
   "status": "partial",
   "theorems": [
    "C128_blocks_fit_refuted",
    "C128_reserve_refuted",
    "C128_blocks_fit_partial",
    "C128_admission_partial"
   ],
   "note": "False of the code: scheduler and message queue may together take 115% of a block, and what is reserved for operational transactions comes on top of what hooks used. Proved: transactions keep to the limits of their classes and together to that of the block; letting one in keeps the proof within its limit."
  },
  {
   "property": "C129",
   "status": "partial",
   "theorems": [
    "C129_reserve_refuted",
    "C129_reserve_partial"
   ],
   "note": "False of the code for the proof (against the comment at the setting). Proved if the proof has room."
  },
  {
   "property": "C130",
   "status": "partial",
   "theorems": [
    "C130_room_refuted",
    "C130_starved_refuted",
    "C130_room_partial"
   ],
   "note": "False of the code when hooks take the whole block. Proved while they take no more than thirty percent."
  },
  {
   "property": "C131",
   "status": "partial",
   "theorems": [
    "C131_queued_refuted",
    "C131_queued_partial"
   ],
   "note": "False of the code: messages of 65532 to 102400 bytes, within the limit of channels named in the configuration, are dropped with the rest of their page. Proved for shorter ones."
  },
  {
   "property": "C132",
   "status": "proved",
   "theorems": [
    "C132_account"
   ],
   "note": "A message that fails to execute counts as executed."
  },
  {
   "property": "C133",
   "status": "partial",
   "theorems": [
    "C133_executed_refuted",
    "C133_executed_partial",
    "C133_executed_fits_partial"
   ],
   "note": "False of the code for messages that need more weight than a transaction may have. Proved with a bound for those within the weight of the queue, while the chain is not paused."
  },
  {
   "property": "C134",
   "status": "proved",
   "theorems": [
    "C134_ends_for_a_reason"
   ],
   "note": "Every step of every history from every genesis, both instances."
  },
  {
   "property": "C135",
   "status": "partial",
   "theorems": [
    "C135_two_days_refuted",
    "C135_four_days_refuted",
    "C135_time_partial",
    "C135_refund_partial",
    "C135_decision_partial",
    "C135_anyway_partial",
    "C135_half_partial"
   ],
   "note": "False of the code: the buffer for disputes called two days is one day of blocks, and the runtime accepts two blocks per slot. Proved: with one core on the relay chain periods last as long as their number of blocks says but for eighteen seconds; half as long whatever the relay chain includes."
  },
  {
   "property": "C136",
   "status": "proved",
   "theorems": [
    "C136_floor",
    "C136_fee_floor",
    "C136_direction",
    "C136_speed",
    "C136_speed_long",
    "C136_day",
    "C136_reacts"
   ],
   "note": "Fixed point arithmetic of the dependency with its rounding and saturation."
  },
  {
   "property": "C137",
   "status": "proved",
   "theorems": [
    "C137_exact",
    "C137_beneficiary"
   ],
   "note": "For callers as they occur, where no remainder of a balance is burnt as dust."
  },
  {
   "property": "C138",
   "status": "partial",
   "theorems": [
    "C138_reserve_partial",
    "C138_lost_refuted"
   ],
   "note": "False of the code: assets of the asset hub sent elsewhere are burnt here, and withdrawn at a chain that does not have them. Proved for all other transfers."
  },
  {
   "property": "C139",
   "status": "proved",
   "theorems": [
    "C139_meaning"
   ],
   "note": "Locations that do not point above the root of all chains."
  },
  {
   "property": "C140",
   "status": "proved",
   "theorems": [
    "C140_send",
    "C140_community",
    "C140_transfers",
    "C140_never"
   ],
   "note": "With the limits of C12 on who looks like a community."
  },
  {
   "property": "C141",
   "status": "partial",
   "theorems": [
    "C141_recovered_partial",
    "C141_stuck_refuted",
    "C141_stuck",
    "C141_never_here"
   ],
   "note": "False of the code: more than twenty kinds trapped together are lost, since no message or call can name them. Proved for up to twenty kinds, trapped for places on other chains; nothing is ever trapped for places here."
  },
  {
   "property": "C142",
   "status": "proved",
   "theorems": [
    "C142_always_authors"
   ],
   "note": "Turns are keys; whether their owners are online is outside the model."
  },
  {
   "property": "C143",
   "status": "proved",
   "theorems": [
    "C143_chosen",
    "C143_fixed",
    "C143_first_bond"
   ],
   "note": "Which of several candidates with equal bonds are chosen is left open by the statement."
  },
  {
   "property": "C144",
   "status": "partial",
   "theorems": [
    "C144_one_turn_partial",
    "C144_two_turns_refuted"
   ],
   "note": "False of the code: an account named twice as invulnerable has two turns. Proved for histories in which root names nobody twice."
  },
  {
   "property": "C145",
   "status": "proved",
   "theorems": [
    "C145_bonds",
    "C145_kept"
   ],
   "note": "Reserves other than those for bonds are not modelled; payments to and from the free part of accounts are arbitrary."
  },
  {
   "property": "C146",
   "status": "proved",
   "theorems": [
    "C146_stopping",
    "C146_leaving"
   ],
   "note": ""
  },
  {
   "property": "C147",
   "status": "partial",
   "theorems": [
    "C147_enough_partial",
    "C147_set_refuted",
    "C147_bond_refuted"
   ],
   "note": "False of the code: setting the invulnerables to accounts without keys, or raising the bond, can leave nobody. Proved for all other steps."
  },
  {
   "property": "C148",
   "status": "partial",
   "theorems": [
    "C148_alive_partial",
    "C148_unheard_refuted",
    "C148_waiting_refuted"
   ],
   "note": "False of the code: a candidate who joins early in a session, or waits for a place, is removed before its key had a turn. Proved: nobody is removed for idling within a session of joining or authoring."
  },
  {
   "property": "C149",
   "status": "proved",
   "theorems": [
    "C149_governed",
    "C149_keys",
    "C149_own",
    "C149_joining"
   ],
   "note": ""
  },
  {
   "property": "C150",
   "status": "proved",
   "theorems": [
    "C150_announced",
    "C150_enough",
    "C150_later",
    "C150_soon",
    "C150_parts",
    "C150_shares"
   ],
   "note": "Feeless transactions and those with gas are told a fee too, though they pay none."
  },
  {
   "property": "C151",
   "status": "proved",
   "theorems": [
    "C151_payments_writes",
    "C151_release_refuted"
   ],
   "note": "On Kreivo, whose fee handler names at most one recipient on each side. For the pallet with any fee handler it is refuted: fees to 50 accounts make release write 42 entries more than it is charged for."
  },
  {
   "property": "C152",
   "status": "partial",
   "theorems": [
    "C152_community_writes_partial",
    "C152_one_membership_partial",
    "C152_remove_vote_refuted",
    "C152_vote_refuted",
    "C152_register_partial",
    "C152_create_memberships",
    "C152_register_refuted"
   ],
   "note": "False of the code: taking back a vote cast with tokens also changes its lock and what is frozen (5 entries, charged 2); voting with a membership whose last holder voted with tokens writes 8 (charged 6); registering a community for a deposit with a decision method writes 17 beside the payer (charged 14). Proved for all other calls but those about memberships, of which is proved that they change one membership and nothing else: how it is kept is up to a library whose source is not here."
  },
  {
   "property": "C153",
   "status": "partial",
   "theorems": [
    "C153_asked_partial",
    "C153_few_partial",
    "C153_block_partial",
    "C153_asked_refuted"
   ],
   "note": "False of the code: fifty tasks are the most that wait for a block, others can schedule for the block a refund would be due in (decisions of referenda choose theirs), and asking for a refund then fails. Proved while fewer than fifty wait for it; the transactions of one block ask for at most 24 refunds."
  },
  {
   "property": "C154",
   "status": "proved",
   "theorems": [
    "C154_fifty",
    "C154_once",
    "C154_kept",
    "C154_not_early",
    "C154_as_scheduled"
   ],
   "note": "About pallet_scheduler as Kreivo sets it up; its code is a dependency, modelled from knowledge of it. Retries and periodic tasks, which only root can ask for, are left out."
  },
  {
   "property": "C155",
   "status": "partial",
   "theorems": [
    "C155_same_block_refuted",
    "C155_by_name_refuted",
    "C155_in_time_partial",
    "C155_by_name_partial",
    "C155_reused_refuted"
   ],
   "note": "False of the code: a task withdrawn in its block by another task of that block is carried out nevertheless, and a task that had to wait has lost its name, also to a later one of the same name. Proved for tasks withdrawn before their block; by name, if the name is used once."
  },
  {
   "property": "C156",
   "status": "partial",
   "theorems": [
    "C156_on_time_refuted",
    "C156_left_refuted",
    "C156_passed_partial",
    "C156_in_turn_partial"
   ],
   "note": "False of the code for the block itself: tasks that come first can use up what the scheduler may use; and a task that fits can even be left for good, when looking at older blocks without tasks used too much before it. Proved: while a task stands in the oldest block with tasks waiting, every block carries out one of them, so it takes no more blocks than tasks wait there (at most fifty)."
  },
  {
   "property": "C157",
   "status": "proved",
   "theorems": [
    "C157_fits",
    "C157_scheduled",
    "C157_memberships"
   ],
   "note": "Weights as the runtime declares them; what a call really takes is outside the model."
  },
  {
   "property": "C158",
   "status": "partial",
   "theorems": [
    "C158_waits_partial",
    "C158_due_partial",
    "C158_lost",
    "C158_same_number_refuted",
    "C158_crowded_refuted"
   ],
   "note": "False of the code: both kinds of referenda are numbered from 0 and schedule their decisions with one scheduler under a name made of the number alone, so a decision approved while one of the other kind with the same number waits is lost; and so is one when fifty tasks wait for its block. The failure to schedule is ignored, the referendum stays approved. Proved: otherwise the decision waits as proposed until it is carried out, or given up or withdrawn. How names are made is knowledge of pallet_referenda, a dependency."
  },
  {
   "property": "C159",
   "status": "proved",
   "theorems": [
    "C159_in_name"
   ],
   "note": "With the limits of C12: who manages a community includes accounts that only look like its own, such as the treasury for community 0. Proxies, multisig, derived accounts, passes and contracts, with which accounts let others act for them, are outside this model (C52, C60, C78 are about some of them)."
  },
  {
   "property": "C160",
   "status": "partial",
   "theorems": [
    "C160_account",
    "C160_relay_refuted",
    "C160_calls_refuted",
    "C160_stuck_refuted",
    "C160_decided_partial",
    "C160_messages_partial",
    "C160_spendable_partial"
   ],
   "note": "False of the code: accounts of the relay chain act here as the account with the same bytes, and the bytes of the treasury's account are those of the relay chain's own treasury, for which the relay chain can speak; and with the genesis the repository writes nobody can ever decide. Proved: calls in the treasury's name are otherwise part of a decision as root, messages from other parachains never lower what it holds, and one member with a rank can have it spent. pallet_treasury itself, whose SpendOrigin is nobody, is not modelled."
  },
  {
   "property": "C161",
   "status": "partial",
   "theorems": [
    "C161_alarm_refuted",
    "C161_queue_refuted",
    "C161_in_time_partial",
    "C161_over_partial"
   ],
   "note": "False of the code: a referendum is ended only by the scheduler looking at it, and the scheduler need not take the alarm (C158 shows it refuse tasks); and one that waits while another of its track is decided about is bound by no period. Proved: one looked at in every block in which its period ends is decided about for at most 57750 blocks, and over 86550 blocks after its submission unless it waited for others. Communities choose the periods of their tracks themselves and are left out."
  },
  {
   "property": "C162",
   "status": "partial",
   "theorems": [
    "C162_onlooker_refuted",
    "C162_again_refuted",
    "C162_ahead_refuted",
    "C162_logins_partial",
    "C162_recent_partial"
   ],
   "note": "False of the code: the challenge is a block's hash and nothing else, so a credential that works for one account works for every other that shows it, again until three blocks after the block it refers to; and of a block not there yet the hash is zero, so what a device signed once for a block far ahead works until then. Proved: every login showed something the user's device signed, of a block not more than three blocks ago, and other than zero only the hash of one of the last three blocks. Sessions, their ends and the device signature itself (an oracle) are pallet_pass's and not modelled."
  },
  {
   "property": "C163",
   "status": "partial",
   "theorems": [
    "C163_shut_out_refuted",
    "C163_alone_partial",
    "C163_own_partial",
    "C163_tally_partial",
    "C163_locks_partial",
    "C163_told_apart_partial"
   ],
   "note": "False of the code: a vote names a membership id and no community, and the community is the first one storage lists in which the caller holds that id. A community whose collection comes earlier can give a member a membership with the id of theirs; the member can then neither vote in their own community nor take a vote back. Proved: who holds the id in one community only votes as usual; whoever votes holds the membership in the poll's community; tallies, locks and votes are those of a history in which ids are told apart, so that the properties of communities that take ids as unique lose nothing. add_member, remove_member, promote and demote are left out here; any change of memberships stands for them."
  },
  {
   "property": "C164",
   "status": "partial",
   "theorems": [
    "C164_still_counts_refuted",
    "C164_stuck_refuted",
    "C164_weight_left_refuted",
    "C164_taken_back_partial",
    "C164_taken_over_partial",
    "C164_over_partial"
   ],
   "note": "False of the code: removing a member touches no vote, tally, lock or freeze, and a former member can neither take their vote back nor unlock what it froze before the poll is over; where votes weigh by rank the weight can never be taken out, because removal sets the rank to zero. Proved instead: once the membership has a new holder who votes with it in that poll or takes the vote back, the former holder's vote is gone and what it froze comes free; and once the poll is over the former member unlocks by themselves."
  },
  {
   "property": "C165",
   "status": "proved",
   "theorems": [
    "C165_until_sold",
    "C165_once",
    "C165_can_be_bought"
   ],
   "note": "For the calls of pallet_nfts that MarketModel.v models (mint, set_price, buy_item, transfer, burn, transfer_ownership, from memory). Offers to one buyer only, approvals and swaps are not modelled."
  },
  {
   "property": "C166",
   "status": "partial",
   "theorems": [
    "C166_self_made_refuted",
    "C166_none_yet_refuted",
    "C166_squatted_refuted",
    "C166_new_items_partial",
    "C166_by_collective_partial"
   ],
   "note": "False of the code: a community's account owns the collection of its memberships and may mint in it, so whoever manages a community makes memberships for nothing; and the collection of the collective's memberships, 0, can be taken by whoever registers community 0 first, without which or a decision of root the collective can create none. Proved instead: items come to be only by the collective or by calls in the name of whose collection it is, and in a collection of the treasury only by the collective while nobody acts in the treasury's name."
  },
  {
   "property": "C167",
   "status": "partial",
   "theorems": [
    "C167_submitting",
    "C167_placing",
    "C167_set_aside",
    "C167_decision_back",
    "C167_decision_until",
    "C167_killed",
    "C167_by_own",
    "C167_submission_back_partial",
    "C167_submission_back_refuted"
   ],
   "note": "False in one case, as pallet_referenda is (dependency, from memory): the submission deposit of a referendum that was rejected or timed out is neither given back nor slashed, so in the collective one unit stays reserved for good. Proved: everything else. When referenda end is left open here (GovernanceModel.v has it)."
  },
  {
   "property": "C168",
   "status": "partial",
   "theorems": [
    "C168_taken_over_refuted",
    "C168_forever_refuted",
    "C168_decision_refuted",
    "C168_stays_partial",
    "C168_decides_partial"
   ],
   "note": "False of the code: set_admin_origin takes any origin as successor, also one that administers another community, which then has no administrator and never gets one again; and a decision of the community may not replace its administrator unless the community itself is recorded as such. Proved instead: who administers stays until they name a successor or such a take-over, and other decisions of an active community about itself take effect in any case."
  },
  {
   "property": "C169",
   "status": "proved",
   "theorems": [
    "C169_named"
   ],
   "note": "For what main does with the parsed arguments. Reading and writing specifications is sc_chain_spec's (dependency)."
  },
  {
   "property": "C170",
   "status": "proved",
   "theorems": [
    "C170_announced",
    "C170_once",
    "C170_stopped",
    "C170_in_time",
    "C170_own_name"
   ],
   "note": "For pallet_proxy's calls (dependency, from memory) and batches; without pure proxies, and with deposits only as an oracle for whether they can be made."
  },
  {
   "property": "C171",
   "status": "partial",
   "theorems": [
    "C171_reconsider_refuted",
    "C171_reconsider_partial"
   ],
   "note": "False: announcements are made with any proxy of the account and their age is compared with the delay of the proxy they are used with (pallet_proxy, dependency, from memory), so a delegate who already is a proxy of another type announces ahead. Proved: the delay has passed since the delegate first became a proxy of the account."
  },
  {
   "property": "C172",
   "status": "proved",
   "theorems": [
    "C172_agreed",
    "C172_one",
    "C172_only",
    "C172_cancelled",
    "C172_can",
    "C172_deposit"
   ],
   "note": "For pallet_multisig (dependency, from memory) and batches. That the accounts of different groups differ (a hash) is a hypothesis; whether deposits can be made, calls succeed and fit their weight are oracles."
  },
  {
   "property": "C173",
   "status": "partial",
   "theorems": [
    "C173_withdraw_refuted",
    "C173_withdraw_partial"
   ],
   "note": "False: pallet_multisig (dependency, from memory) has no call to withdraw an approval; only who opened the operation can cancel it, with all approvals. Proved: that they can."
  },
  {
   "property": "C174",
   "status": "partial",
   "theorems": [
    "C174_total",
    "C174_costs",
    "C174_reserved_partial",
    "C174_reserved_refuted",
    "C174_bond_refuted"
   ],
   "note": "False of the code once accounts without keys are closed: their maker is given back what others paid, out of anything reserved of them. Proved for all accounts that have no dealings with such accounts; that sums are kept is proved for all."
  },
  {
   "property": "C175",
   "status": "proved",
   "theorems": [
    "C175_acted",
    "C175_names",
    "C175_made",
    "C175_can"
   ],
   "note": "Given that the hash that names these accounts has no collisions."
  },
  {
   "property": "C176",
   "status": "partial",
   "theorems": [
    "C176_close_refuted",
    "C176_close_partial"
   ],
   "note": "False for all types but Any: such an account is never closed. Proved for Any without delay."
  },
  {
   "property": "C177",
   "status": "partial",
   "theorems": [
    "C177_kept_partial",
    "C177_kept_refuted"
   ],
   "note": "False of schedules an account gives to itself: the transfer to oneself takes nothing. Proved of all others, merged or not. pallet_vesting (dependency) from memory; slashing of what is reserved left out."
  },
  {
   "property": "C178",
   "status": "partial",
   "theorems": [
    "C178_frees_partial",
    "C178_merged_refuted"
   ],
   "note": "False once schedules are merged: what is left is divided by the blocks left, rounded down, so that some vests after both would have been over. Proved without merging."
  },
  {
   "property": "C179",
   "status": "proved",
   "theorems": [
    "C179_others",
    "C179_bounded",
    "C179_room"
   ],
   "note": "For pallet_vesting and the locks of pallet_balances (dependencies, from memory)."
  },
  {
   "property": "C180",
   "status": "proved",
   "theorems": [
    "C180_paid",
    "C180_wanted",
    "C180_right"
   ],
   "note": "For pallet_preimage (dependency, from memory), given that the hash has no collisions."
  },
  {
   "property": "C181",
   "status": "proved",
   "theorems": [
    "C181_exact",
    "C181_back",
    "C181_others",
    "C181_sum",
    "C181_untouched"
   ],
   "note": "For pallet_preimage and its holds (dependencies, from memory); slashing of holds left out."
  },
  {
   "property": "C182",
   "status": "partial",
   "theorems": [
    "C182_note_partial",
    "C182_note_refuted"
   ],
   "note": "False of texts somebody else pays for already: the call fails, and they can take the text back. Proved of all others; until when it stays is C180."
  },
  {
   "property": "C183",
   "status": "proved",
   "theorems": [
    "C183_only_so",
    "C183_closed",
    "C183_arrives"
   ],
   "note": "For pallet_assets and pallet_assets_freezer (dependencies, from memory); pallets give and take as steps of their own."
  },
  {
   "property": "C184",
   "status": "partial",
   "theorems": [
    "C184_budget_partial",
    "C184_withdrawn_partial",
    "C184_usable_partial",
    "C184_stands_partial",
    "C184_more_refuted",
    "C184_adds_refuted"
   ],
   "note": "False of the code: what is below the minimum goes along, so a delegate can take more than was approved, and approving again adds to what was approved before. Proved: the amounts asked for add up to at most what was approved in all, nothing after the withdrawal, usable while it stands."
  },
  {
   "property": "C185",
   "status": "partial",
   "theorems": [
    "C185_exact",
    "C185_withdrawn_partial",
    "C185_used_up",
    "C185_destroyed",
    "C185_rooted",
    "C185_while_frozen",
    "C185_back_refuted"
   ],
   "note": "False while the asset is frozen: nobody but its owner, its admin and root can bring the deposit back. Proved for assets that are live or being destroyed."
  },
  {
   "property": "C186",
   "status": "proved",
   "theorems": [
    "C186_terms",
    "C186_frozen",
    "C186_thawed",
    "C186_destroyed",
    "C186_closed",
    "C186_supply",
    "C186_backed"
   ],
   "note": "For pallet_assets (dependency, from memory)."
  },
  {
   "property": "C187",
   "status": "proved",
   "theorems": [
    "C187_only_so",
    "C187_frozen",
    "C187_arrives",
    "C187_gains"
   ],
   "note": "For pallet_balances (dependency, from memory); other pallets give, take, set aside, release, slash and freeze as steps of their own."
  },
  {
   "property": "C188",
   "status": "proved",
   "theorems": [
    "C188_usable",
    "C188_all",
    "C188_kept"
   ],
   "note": "For pallet_balances (dependency, from memory). Unless root set the issuance before."
  },
  {
   "property": "C189",
   "status": "proved",
   "theorems": [
    "C189_sum",
    "C189_transfers",
    "C189_minimum"
   ],
   "note": "For pallet_balances (dependency, from memory)."
  },
  {
   "property": "C190",
   "status": "proved",
   "theorems": [
    "C190_usable"
   ],
   "note": "For pallet_assets and pallet_assets_freezer (dependencies, from memory); whether an account can come into being is an oracle."
  }
 ]
}