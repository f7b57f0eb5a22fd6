-Q theories Verif
theories/Base.v
theories/BaseFacts.v
theories/MemSpec.v
theories/MemModel.v
theories/MemProofs.v
theories/MemQueries.v
theories/MemProps.v
theories/Field.v
theories/RetSpec.v
theories/RetModel.v
theories/RetProofs.v
theories/RetProps.v
theories/LateModel.v
theories/LateProps.v
theories/AgentSpec.v
theories/AgentModel.v
theories/AgentProofs.v
theories/AgentInv.v
theories/AgentRuns.v
theories/AgentFlush.v
theories/AgentProps.v
theories/AgentMoreProps.v
theories/DictSpec.v
theories/DictModel.v
theories/DictProofs.v
theories/SigModel.v
theories/SigProofs.v
theories/MergeProofs.v
theories/DictProps.v
theories/SpecSpec.v
theories/SpecModel.v
theories/SpecProofs.v
theories/SpecProps.v
theories/SpecMoreProps.v
theories/RecSpec.v
theories/RecModel.v
theories/RecProofs.v
theories/RecProps.v
theories/EnvSpec.v
theories/EnvModel.v
theories/EnvProps.v
theories/SockModel.v
theories/SockProps.v
theories/RemoteSpec.v
theories/RemoteModel.v
theories/RemoteProps.v
theories/RunSpec.v
theories/RunModel.v
theories/RunProofs.v
theories/RunInv.v
theories/RunHist.v
theories/RunLoop.v
theories/RunBatch.v
theories/RunPass.v
theories/RunHead.v
theories/RunEnd.v
theories/RunKeep.v
theories/RunProps.v
theories/ParModel.v
theories/ParProofs.v
theories/ParProps.v
theories/PreModel.v
theories/PreProofs.v
theories/PreProps.v
theories/NormProps.v
theories/OptVec.v
theories/SolveModel.v
theories/OptModel.v
theories/OptProofs.v
theories/OptProofs2.v
theories/OptProps.v
theories/DistModel.v
theories/DistProofs.v
theories/DistProofs2.v
theories/DistProofs3.v
theories/DistProps.v
theories/SaveModel.v
theories/SaveSpec.v
theories/SaveProofs.v
theories/SaveProofs2.v
theories/SaveProofs3.v
theories/SaveProofs4.v
theories/SaveProps.v
theories/SaveMoreProps.v
theories/DistMoreProps.v
theories/MoreProps.v
theories/WrapProps.v
theories/ObjModel.v
theories/ObjProps.v
theories/UpdModel.v
theories/UpdProps.v
theories/AgtModel.v
theories/AgtProofs.v
theories/AgtProofs2.v
theories/AgtProps.v
theories/AgtMoreProps.v
theories/AgtKindProps.v
theories/UpdMoreProps.v
theories/TempModel.v
theories/TempSpec.v
theories/TempProofs.v
theories/TempProps.v
theories/TempNetProps.v
theories/LayModel.v
theories/LaySpec.v
theories/LayProofs.v
theories/LayNet.v
theories/LayAuto.v
theories/LayProps.v
theories/LayValProps.v
theories/CartModel.v
theories/CartSpec.v
theories/CartProofs.v
theories/CartProps.v
theories/GymModel.v
theories/GymEnvModel.v
theories/GymSpec.v
theories/GymProofs.v
theories/GymFitProofs.v
theories/GymStateProofs.v
theories/GymEnvProofs.v
theories/GymProps.v
theories/InpModel.v
theories/InpSpec.v
theories/InpProofs.v
theories/InpActProofs.v
theories/InpRowProofs.v
theories/InpOutProofs.v
theories/InpBatchProofs.v
theories/InpStreamProofs.v
theories/InpMaskProofs.v
theories/InpProps.v
theories/InpStreamProps.v
theories/InpObserveProps.v
theories/RndSpec.v
theories/RndModel.v
theories/RndProofs.v
theories/RndActProofs.v
theories/RndProps.v
theories/RndConstProps.v
theories/EcrModel.v
theories/EcrSpec.v
theories/EcrProofs.v
theories/EcrTermProofs.v
theories/EcrProps.v
theories/EcrRemoteProps.v
theories/InpNamesProps.v
theories/EcrValuesProps.v
theories/ExpModel.v
theories/ExpSpec.v
theories/ExpProofs.v
theories/ExpRunProofs.v
theories/ExpFedProofs.v
theories/ExpCutProofs.v
theories/ExpProps.v
theories/ExpRejProps.v
theories/PtrSpec.v
theories/PtrProofs.v
theories/PtrRunProofs.v
theories/PtrIterProofs.v
theories/PtrRecProofs.v
theories/PtrProps.v
theories/ModModel.v
theories/ModSpec.v
theories/ModProofs.v
theories/ModTermProofs.v
theories/ModProps.v
theories/NamModel.v
theories/NamSpec.v
theories/NamProofs.v
theories/NamProps.v
theories/GloModel.v
theories/GloSpec.v
theories/GloProofs.v
theories/GloProps.v
theories/ChkModel.v
theories/ChkSpec.v
theories/ChkProofs.v
theories/ChkProofs2.v
theories/ChkProofs3.v
theories/ChkProps.v
theories/CfgModel.v
theories/CfgSpec.v
theories/CfgProofs.v
theories/CfgProofs2.v
theories/CfgProofs3.v
theories/CfgProps.v
theories/AdaModel.v
theories/AdaSpec.v
theories/AdaProofs.v
theories/AdaProps.v
theories/ToolSpec.v
theories/ToolModel.v
theories/ToolProofs.v
theories/ToolProofs2.v
theories/ToolProps.v
theories/RcvSpec.v
theories/RcvModel.v
theories/RcvProofs.v
theories/RcvProps.v
theories/VecSpec.v
theories/VecModel.v
theories/VecProofs.v
theories/VecProps.v
theories/PtrAuxProps.v
theories/AgtLoadProps.v
theories/SpecArrProps.v
theories/EnvChkProps.v
theories/VecNumModel.v
theories/VecNumProps.v
