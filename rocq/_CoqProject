-Q theories Verif
theories/Base.v
theories/BaseProofs.v
theories/PaymentIdModel.v
theories/PaymentIdSpec.v
theories/Base58Proofs.v
theories/PaymentIdProofs.v
theories/PropsPaymentId.v
theories/XcmTypes.v
theories/AssetLocationModel.v
theories/AssetLocationProofs.v
theories/PropsAssets.v
theories/OriginTypes.v
theories/FeesModel.v
theories/LedgerModel.v
theories/PaymentsModel.v
theories/PaymentsSpec.v
theories/LedgerProofs.v
theories/FeesProofs.v
theories/PaymentsProofs.v
theories/PaymentsInvariants.v
theories/PaymentsHistories.v
theories/PaymentsTheorems.v
theories/PaymentsAmounts.v
theories/PaymentsMore.v
theories/PropsPayments.v
theories/AccountsModel.v
theories/AccountsSpec.v
theories/AccountsProofs.v
theories/PropsAccounts.v
theories/KreivoPaymentsModel.v
theories/KreivoPaymentsSpec.v
theories/KreivoPaymentsProofs.v
theories/PropsKreivoPayments.v
theories/PaymentsEndsSpec.v
theories/PaymentsEnds.v
theories/PropsPaymentsEnds.v
theories/CommunitiesModel.v
theories/CommunitiesSpec.v
theories/CommunitiesProofs.v
theories/CommunitiesTally.v
theories/CommunitiesLocks.v
theories/CommunitiesRegistry.v
theories/CommunitiesTheorems.v
theories/CommunitiesExamples.v
theories/PropsCommunities.v
theories/TracksModel.v
theories/TracksSpec.v
theories/TracksProofs.v
theories/ManagerModel.v
theories/ManagerSpec.v
theories/ManagerProofs.v
theories/PropsManager.v
theories/KreivoPaymentsOrigins.v
theories/ProxyModel.v
theories/ProxySpec.v
theories/ProxyProofs.v
theories/ProxyRefuted.v
theories/RuntimeModel.v
theories/RuntimeProofs.v
theories/XcmConfigModel.v
theories/XcmConfigSpec.v
theories/XcmConfigProofs.v
theories/XcmBarrierSpec.v
theories/XcmConfigTheorems.v
theories/PropsRuntime.v
theories/PropsXcm.v
theories/XcmCountable.v
theories/XcmInstrModel.v
theories/XcmWeightsModel.v
theories/XcmTraderModel.v
theories/XcmTraderSpec.v
theories/XcmTraderProofs.v
theories/XcmExecModel.v
theories/XcmExecSpec.v
theories/XcmExecProofs.v
theories/XcmRunProofs.v
theories/XcmMessageProofs.v
theories/PropsXcmExec.v
theories/XcmWeightsSpec.v
theories/XcmWeightsProofs.v
theories/PropsXcmWeights.v
theories/XcmNativeProofs.v
theories/XcmSurplusSpec.v
theories/XcmSurplusProofs.v
theories/PropsXcmTrader.v
theories/CostModel.v
theories/CostSpec.v
theories/CostProofs.v
theories/TxFeesModel.v
theories/TxFeesSpec.v
theories/TxFeesProofs.v
theories/QueryModel.v
theories/QueryProofs.v
theories/PropsFees.v
theories/PaymentsEventsModel.v
theories/PaymentsEventsSpec.v
theories/PaymentsEventsProofs.v
theories/CommunitiesEventsSpec.v
theories/CommunitiesEvents.v
theories/PropsEvents.v
theories/GovernanceModel.v
theories/GovernanceSpec.v
theories/GovernanceProofs.v
theories/GovernanceMore.v
theories/GovernanceRanks.v
theories/GovernanceVotes.v
theories/GovernanceTiming.v
theories/GovernanceLive.v
theories/GovernanceCount.v
theories/GovernanceEndsSpec.v
theories/GovernanceEnds.v
theories/PropsGovernance.v
theories/TransactionsModel.v
theories/TransactionsSpec.v
theories/TransactionsProofs.v
theories/BlocksModel.v
theories/BlocksSpec.v
theories/BlocksProofs.v
theories/QueueModel.v
theories/QueueSpec.v
theories/QueueProofs.v
theories/PropsBlocks.v
theories/TimeModel.v
theories/TimeSpec.v
theories/TimeProofs.v
theories/FeeMultiplierModel.v
theories/FeeMultiplierSpec.v
theories/FeeMultiplierProofs.v
theories/FeeMultiplierFees.v
theories/PropsTime.v
theories/XcmSendModel.v
theories/XcmSendSpec.v
theories/XcmSendProofs.v
theories/XcmTrapProofs.v
theories/PropsXcmSend.v
theories/CollatorsModel.v
theories/CollatorsSpec.v
theories/CollatorsProofs.v
theories/CollatorsSessions.v
theories/CollatorsTheorems.v
theories/CollatorsExamples.v
theories/CollatorsRights.v
theories/PropsCollators.v
theories/FeeQueryModel.v
theories/FeeQueryProofs.v
theories/PropsFeeQuery.v
theories/WritesModel.v
theories/WritesSpec.v
theories/WritesProofs.v
theories/CallsFitSpec.v
theories/CallsFitProofs.v
theories/PropsWrites.v
theories/SchedulerModel.v
theories/SchedulerSpec.v
theories/SchedulerProofs.v
theories/SchedulerLeft.v
theories/SchedulerRefundsSpec.v
theories/SchedulerRefunds.v
theories/PropsScheduler.v
theories/WithdrawSpec.v
theories/SchedulerNames.v
theories/PropsWithdraw.v
theories/DecisionsSpec.v
theories/Decisions.v
theories/PropsDecisions.v
theories/NamesSpec.v
theories/Names.v
theories/PropsNames.v
theories/EndInTimeSpec.v
theories/EndInTime.v
theories/PropsEndInTime.v
theories/LoginModel.v
theories/LoginProofs.v
theories/PropsLogin.v
theories/SharedIdsModel.v
theories/SharedIdsSpec.v
theories/SharedIds.v
theories/SharedIdsTwin.v
theories/SharedIdsTally.v
theories/PropsSharedIds.v
theories/FormerMembersSpec.v
theories/FormerMembers.v
theories/PropsFormerMembers.v
theories/MarketModel.v
theories/MarketSpec.v
theories/Market.v
theories/PropsMarket.v
theories/DepositsModel.v
theories/DepositsSpec.v
theories/Deposits.v
theories/PropsDeposits.v
theories/AdminsSpec.v
theories/Admins.v
theories/PropsAdmins.v
theories/GeneratorModel.v
theories/Generator.v
theories/PropsGenerator.v
theories/DelayedModel.v
theories/DelayedSpec.v
theories/Delayed.v
theories/PropsDelayed.v
theories/MultiModel.v
theories/MultiSpec.v
theories/Multi.v
theories/PropsMulti.v
theories/PropsMore.v
theories/PureModel.v
theories/PureSpec.v
theories/Pure.v
theories/PropsPure.v
theories/VestingModel.v
theories/VestingSpec.v
theories/Vesting.v
theories/PropsVesting.v
theories/PreimageModel.v
theories/PreimageSpec.v
theories/Preimage.v
theories/PropsPreimage.v
theories/TokensModel.v
theories/TokensSpec.v
theories/Tokens.v
theories/TokensApproved.v
theories/TokensSupply.v
theories/PropsTokens.v
theories/NativeModel.v
theories/NativeSpec.v
theories/Native.v
theories/PropsNative.v
theories/TokensUsable.v
theories/PropsTokensUse.v
