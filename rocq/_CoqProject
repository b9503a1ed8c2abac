-Q theories Verif
theories/Base.v
theories/BaseLemmas.v
theories/AvnModel.v
theories/AvnProofs.v
theories/AvnProps.v
theories/SummaryModel.v
theories/SummarySpec.v
theories/SummaryProofs.v
theories/SummaryProofs2.v
theories/SummaryProps.v
theories/CodecModel.v
theories/CodecProofs.v
theories/CodecProps.v
theories/SigModel.v
theories/TokenModel.v
theories/TokenProofs.v
theories/TokenSpec.v
theories/TokenProofs2.v
theories/TokenProofs3.v
theories/TokenProps.v
theories/BridgeModel.v
theories/BridgeProofs.v
theories/BridgeSpec.v
theories/BridgeProofs2.v
theories/BridgeProofs3.v
theories/BridgeProofs4.v
theories/BridgeProps.v
theories/IncomingModel.v
theories/IncomingSpec.v
theories/IncomingProofs.v
theories/IncomingProofs2.v
theories/IncomingProofs3.v
theories/IncomingProps.v
theories/NftModel.v
theories/NftSpec.v
theories/NftProofs.v
theories/NftProofs2.v
theories/NftProofs3.v
theories/NftProps.v
theories/ProxyModel.v
theories/ProxySpec.v
theories/ProxyProofs.v
theories/ProxyProps.v
theories/FeeModel.v
theories/FeeSpec.v
theories/FeeProofs.v
theories/FeeProps.v
theories/StakeModel.v
theories/StakeSpec.v
theories/StakeBook.v
theories/StakeCross.v
theories/StakeInv.v
theories/StakeOps.v
theories/StakeNom.v
theories/StakeLeave.v
theories/StakeExit.v
theories/StakeCand.v
theories/StakeRun.v
theories/StakeProps.v
theories/StakeFrame.v
theories/StakeMoves.v
theories/StakeSteps.v
theories/StakeProps2.v
theories/StakeProps3.v
theories/StakeProps4.v
theories/StakeProps5.v
theories/MerkleModel.v
theories/MerkleProps.v
theories/AnchorModel.v
theories/AnchorProofs.v
theories/AnchorProps.v
theories/RewardModel.v
theories/RewardProofs.v
theories/RewardProofs2.v
theories/RewardProofs3.v
theories/RewardProps.v
theories/ValModel.v
theories/ValSpec.v
theories/ValProofs.v
theories/ValProps.v
theories/LogModel.v
theories/LogProofs.v
theories/LogProps.v
theories/OffenceModel.v
theories/OffenceProps.v
theories/ParseModel.v
theories/ParseProofs.v
theories/ParseCases.v
theories/ParseProps.v
theories/DiscoveryModel.v
theories/DiscoveryProofs.v
theories/DiscoveryProps.v
theories/DiscoveryProps2.v
theories/HttpModel.v
theories/HttpProofs.v
theories/ServiceModel.v
theories/ServiceProofs.v
theories/ServiceProofs2.v
theories/ServiceProps.v
theories/CorroborateModel.v
theories/CorroborateProps.v
theories/AbiModel.v
theories/AbiSpec.v
theories/AbiProofs.v
theories/AbiProofs2.v
theories/AbiProofs3.v
theories/AbiProps.v
theories/OcwModel.v
theories/OcwSpec.v
theories/OcwProofs.v
theories/OcwProofs2.v
theories/OcwProps.v
theories/SessionModel.v
theories/SessionProofs.v
theories/SessionProofs2.v
theories/SessionProps.v
theories/ScaleModel.v
theories/ScaleProofs.v
theories/MigrationModel.v
theories/MigrationSpec.v
theories/MigrationProofs.v
theories/MigrationProps.v
theories/SummaryOcwModel.v
theories/SummaryOcwSpec.v
theories/SummaryOcwProofs.v
theories/SummaryOcwProofs2.v
theories/SummaryOcwProofs3.v
theories/SummaryOcwProofs4.v
theories/SummaryOcwProofs5.v
theories/SummaryOcwProps.v
theories/BridgeOcwModel.v
theories/BridgeOcwSpec.v
theories/BridgeOcwProofs.v
theories/BridgeOcwProofs2.v
theories/BridgeOcwProofs3.v
theories/BridgeOcwProps.v
theories/BridgeOcwProps2.v
theories/BridgeOcwProps3.v
theories/AuthorsModel.v
theories/AuthorsSpec.v
theories/AuthorsProofs.v
theories/AuthorsProps.v
theories/SignedModel.v
theories/SignedProps.v
theories/SummaryOcwProps2.v
theories/EventsOcwModel.v
theories/EventsOcwSpec.v
theories/EventsOcwProofs.v
theories/EventsOcwProps.v
theories/EventsOcwProps2.v
theories/WireModel.v
theories/WireProps.v
theories/StakeProps6.v
theories/StakeProps7.v
theories/StakeProps8.v
theories/TxFeeModel.v
theories/TxFeeProps.v
theories/EthKeyModel.v
theories/EthKeyProps.v
theories/TokenProps2.v
theories/AuthProps.v
theories/Assumptions.v
