-Q theories Verif

theories/Base.v
theories/OMap.v
theories/OMapLemmas.v
theories/PollModel.v
theories/PollSpec.v
theories/PollProofs.v
theories/PollExamples.v
theories/PollFacts.v
theories/PropPoll.v
theories/Assets.v
theories/FundsModel.v
theories/FundsSpec.v
theories/FundsProofs.v
theories/FundsExamples.v
theories/FundsFacts.v
theories/PropFunds.v
theories/MemberModel.v
theories/MemberSpec.v
theories/MemberProofs.v
theories/MemberExamples.v
theories/MemberCases.v
theories/MemberFacts.v
theories/PropMember.v
theories/Msgs.v
theories/ControllerModel.v
theories/ControllerSpec.v
theories/ControllerProofs.v
theories/ControllerFacts.v
theories/ControllerExamples.v
theories/ControllerCases.v
theories/PropController.v
theories/TreasuryModel.v
theories/TreasurySpec.v
theories/TreasuryProofs.v
theories/MigrationProofs.v
theories/TreasuryFacts.v
theories/MigrationFacts.v
theories/TreasuryExamples.v
theories/TreasuryCases.v
theories/PropTreasury.v
theories/EnterpriseModel.v
theories/EnterpriseSpec.v
theories/EnterpriseProofs.v
theories/EnterpriseFacts.v
theories/EnterpriseExamples.v
theories/EnterpriseCases.v
theories/PropEnterprise.v
theories/OutpostsModel.v
theories/OutpostsSpec.v
theories/OutpostsFacts.v
theories/OutpostsExamples.v
theories/OutpostsCases.v
theories/PropOutposts.v
theories/FactoryModel.v
theories/FactorySpec.v
theories/FactoryProofs.v
theories/FactoryFacts.v
theories/FactoryExamples.v
theories/FactoryCases.v
theories/PropFactory.v
theories/WorldModel.v
theories/WorldSpec.v
theories/WorldMember.v
theories/WorldProofs.v
theories/WorldRun.v
theories/WorldFacts.v
theories/WorldExamples.v
theories/WorldCases.v
theories/PropWorld.v
theories/LedgerSpec.v
theories/LedgerProofs.v
theories/LedgerMember.v
theories/LedgerFacts.v
theories/LedgerDeposits.v
theories/LedgerExamples.v
theories/LedgerCases.v
theories/PropLedger.v
theories/CreationModel.v
theories/CreationFacts.v
theories/CreationCases.v
theories/PropCreation.v
theories/LiftSpec.v
theories/LiftProofs.v
theories/LiftFacts.v
theories/LiftCases.v
theories/PropLift.v
theories/WorldInduct.v
theories/LiveSpec.v
theories/LiveProofs.v
theories/LiveFacts.v
theories/LiveStuck.v
theories/LiveResults.v
theories/LiveCases.v
theories/PropLive.v
theories/FacadeModel.v
theories/FacadeV1Model.v
theories/FacadeSpec.v
theories/FacadeProofs.v
theories/FacadeQueries.v
theories/FacadeFacts.v
theories/FacadeCases.v
theories/PropFacade.v
theories/PagingSpec.v
theories/PagingPolls.v
theories/PagingFacts.v
theories/PagingCases.v
theories/PropPaging.v
theories/RewardSpec.v
theories/RewardProofs.v
theories/RewardFacts.v
theories/RewardCases.v
theories/PropReward.v
theories/ExitSpec.v
theories/ExitProofs.v
theories/ExitFacts.v
theories/ExitStart.v
theories/ExitCases.v
theories/PropExit.v
theories/PurseSpec.v
theories/PurseProofs.v
theories/PurseFacts.v
theories/PurseStart.v
theories/PurseCases.v
theories/PropPurse.v
theories/RuleSpec.v
theories/RuleProofs.v
theories/RuleFacts.v
theories/RuleCases.v
theories/PropRule.v
theories/VoteSpec.v
theories/VoteFacts.v
theories/VoteCases.v
theories/PropVote.v
theories/WorldCalm.v
theories/EndSpec.v
theories/EndFacts.v
theories/EndCases.v
theories/PropEnd.v
theories/ProposeSpec.v
theories/ProposeFacts.v
theories/ProposeLock.v
theories/ProposeCases.v
theories/PropPropose.v
theories/OrderSpec.v
theories/OrderProofs.v
theories/OrderFacts.v
theories/OrderCases.v
theories/PropOrder.v
theories/DoneSpec.v
theories/DoneProofs.v
theories/DoneFacts.v
theories/DoneCases.v
theories/PropDone.v
theories/RipeSpec.v
theories/RipeFacts.v
theories/RipeCases.v
theories/PropRipe.v
theories/PassSpec.v
theories/PassProofs.v
theories/PassFacts.v
theories/PassCases.v
theories/SentProofs.v
theories/SentFacts.v
theories/PropPass.v
theories/PropSent.v
theories/ShareSpec.v
theories/ShareFacts.v
theories/ShareCases.v
theories/PropShare.v
theories/BallotSpec.v
theories/BallotProofs.v
theories/BallotFacts.v
theories/BallotCases.v
theories/PropBallot.v
theories/FrontModel.v
theories/FrontSpec.v
theories/FrontFacts.v
theories/FrontCases.v
theories/PropFront.v
theories/JoinSpec.v
theories/JoinProofs.v
theories/JoinFacts.v
theories/JoinCases.v
theories/PropJoin.v
theories/AbroadSpec.v
theories/AbroadProofs.v
theories/AbroadFacts.v
theories/AbroadCases.v
theories/PropAbroad.v
theories/RecountSpec.v
theories/RecountFacts.v
theories/RecountCases.v
theories/PropRecount.v
theories/MajoritySpec.v
theories/MajorityFacts.v
theories/MajorityCases.v
theories/PropMajority.v
theories/BoundsSpec.v
theories/BoundsFacts.v
theories/BoundsCases.v
theories/PropBounds.v
theories/AccessSpec.v
theories/AccessProofs.v
theories/AccessFacts.v
theories/AccessCases.v
theories/PropAccess.v
theories/SettingSpec.v
theories/SettingProofs.v
theories/SettingFacts.v
theories/SettingCases.v
theories/PropSetting.v
theories/SeatSpec.v
theories/SeatProofs.v
theories/SeatFacts.v
theories/SeatCases.v
theories/PropSeat.v
theories/EnactSpec.v
theories/EnactProofs.v
theories/EnactFacts.v
theories/EnactCases.v
theories/PropEnact.v
theories/DismissSpec.v
theories/DismissProofs.v
theories/DismissFacts.v
theories/DismissCases.v
theories/PropDismiss.v
theories/SwaySpec.v
theories/SwayFacts.v
theories/SwayCases.v
theories/PropSway.v
theories/SpreadSpec.v
theories/SpreadFacts.v
theories/SpreadCases.v
theories/PropSpread.v
theories/VoiceFacts.v
theories/VoiceCases.v
theories/PropVoice.v
theories/ShelfSpec.v
theories/ShelfFacts.v
theories/ShelfCases.v
theories/PropShelf.v
theories/GrantSpec.v
theories/GrantFacts.v
theories/GrantCases.v
theories/PropGrant.v
theories/MadeSpec.v
theories/MadeFacts.v
theories/MadeCases.v
theories/PropMade.v
