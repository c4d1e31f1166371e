-Q theories Verif
theories/Frac.v
theories/Lists.v
theories/Spec_Pure.v
theories/FracProofs.v
theories/ListsProofs.v
theories/PureLemmas.v
theories/Props_Pure.v
theories/State.v
theories/Monad.v
theories/Schedule.v
theories/Noding.v
theories/Referral.v
theories/Bank.v
theories/Earning.v
theories/Delegating.v
theories/Profile.v
theories/Voting.v
theories/App.v
theories/Genesis.v
theories/MonadProofs.v
theories/Sweep.v
theories/Spec_Schedule.v
theories/ScheduleProofs.v
theories/Witness.v
theories/Props_Schedule.v
theories/ModeProofs.v
theories/SweepO.v
theories/SweepP.v
theories/Blocks.v
theories/Spec_Bank.v
theories/FeeProofs.v
theories/BankProofs.v
theories/Props_Bank.v
theories/Spec_Delegating.v
theories/DelegProofs.v
theories/DelegHist.v
theories/Props_Delegating.v
theories/Spec_Noding.v
theories/NodingProofs.v
theories/VpProofs.v
theories/GatherProofs.v
theories/NodingHist.v
theories/VoteProofs.v
theories/OperProofs.v
theories/QualProofs.v
theories/Props_Noding.v
theories/Spec_Voting.v
theories/StaffProofs.v
theories/VotingProofs.v
theories/PollProofs.v
theories/VotingGenesis.v
theories/Props_Voting.v
theories/Spec_Profile.v
theories/NameProofs.v
theories/TariffProofs.v
theories/NameHist.v
theories/TariffHist.v
theories/Props_Profile.v
theories/RefTheory.v
theories/RefProofs.v
theories/Spec_Referral.v
theories/StatusProofs.v
theories/Props_Referral.v
theories/RefSane.v
theories/RefOps.v
theories/RefSteps.v
theories/RefMove.v
theories/Spec_History.v
theories/Spec_Network.v
theories/History.v
theories/RefHist.v
theories/NetProofs.v
theories/HoldProofs.v
theories/RefDom.v
theories/ListProofs.v
theories/ListHist.v
theories/Props_Network.v
theories/Spec_Genesis.v
theories/GenesisProofs.v
theories/ExportProofs.v
theories/NameGenesis.v
theories/NumberHist.v
theories/Props_Genesis.v
theories/Props_Restart.v
theories/Queries.v
theories/Spec_Queries.v
theories/QueryProofs.v
theories/Props_Queries.v
theories/Spec_Consent.v
theories/ConsentProofs.v
theories/PriceProofs.v
theories/Props_Consent.v
theories/Spec_Place.v
theories/PlaceProofs.v
theories/Props_Place.v
theories/Spec_Live.v
theories/LiveProofs.v
theories/LiveRevoke.v
theories/Props_Live.v
theories/Props_Counters.v
theories/Upgrade.v
theories/Spec_Upgrade.v
theories/UpgradeProofs.v
theories/UpgradeMore.v
theories/Spec_Upgrade232.v
theories/UpgradeGo.v
theories/Spec_Upgrade210.v
theories/UpgradeBan.v
theories/Props_Upgrade.v
theories/Props_Upgrade210.v
theories/Props_Upgrade232.v
theories/Spec_Settings.v
theories/Props_Settings.v
theories/LiveBuy.v
theories/LiveFirst.v
theories/LiveEnd.v
theories/LiveJoin.v
theories/Props_Rights.v
theories/Props_Join.v
theories/Props_Begin.v
theories/Props_Ask.v
theories/LiveNode.v
theories/Props_Leave.v
theories/LiveSet.v
theories/Props_Give.v
theories/Props_End.v
theories/Props_Buy.v
theories/IndexProofs.v
theories/IndexGen.v
theories/Spec_Index.v
theories/Props_Index.v
