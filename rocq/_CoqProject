-Q theories Verif

theories/Prelude.v
theories/Scale.v
theories/ScaleDec.v
theories/CommonTypes.v
theories/SigModel.v
theories/SigSpec.v
theories/SigProofs.v
theories/SigProperties.v
theories/Sums.v
theories/MsaModel.v
theories/MsaSpec.v
theories/MsaProofs.v
theories/MsaDelegProofs.v
theories/MsaMoreProofs.v
theories/MsaProperties.v
theories/MsaMoreProperties.v
theories/CapModel.v
theories/CapSpec.v
theories/CapProofs.v
theories/CapMore.v
theories/CapProperties.v
theories/TrModel.v
theories/TrSpec.v
theories/TrProofs.v
theories/TrProperties.v
theories/StModel.v
theories/StSpec.v
theories/StProofs.v
theories/StMoreProofs.v
theories/XxHash.v
theories/XxProofs.v
theories/StPayloadProofs.v
theories/StFinal.v
theories/StProperties.v
theories/StHashProofs.v
theories/StHashProperties.v
theories/Utf8.v
theories/Utf8Proofs.v
theories/HConfusables.v
theories/HModel.v
theories/HSpec.v
theories/HProofs.v
theories/HFinal.v
theories/HProperties.v
theories/ScModel.v
theories/ScSpec.v
theories/ScProofs.v
theories/ScFinal.v
theories/ScProperties.v
theories/JsModel.v
theories/JsSpec.v
theories/JsProofs.v
theories/JsFinal.v
theories/JsProperties.v
theories/MgModel.v
theories/MgSpec.v
theories/MgPageProofs.v
theories/MgProofs.v
theories/MgFinal.v
theories/MgProperties.v
theories/CidModel.v
theories/CidSpec.v
theories/CidProofs.v
theories/CidProperties.v
theories/HFormProofs.v
theories/HFormProperties.v
theories/FeeModel.v
theories/RtModel.v
theories/FeeSpec.v
theories/FeeProofs.v
theories/FeeFinal.v
theories/FeeProperties.v
theories/RtSpec.v
theories/RtProofs.v
theories/RtProj.v
theories/RtFinal.v
theories/RtFinal2.v
theories/RtProperties.v
theories/RtMoreSpec.v
theories/RtMore.v
theories/RtRefs.v
theories/RtMoreProperties.v
theories/DeployedProofs.v
theories/DeployedProperties.v
theories/RpcModel.v
theories/RpcSpec.v
theories/RpcProofs.v
theories/RpcProperties.v
theories/EvModel.v
theories/EvSpec.v
theories/EvMsaProofs.v
theories/EvProofs.v
theories/EvProperties.v
theories/GenModel.v
theories/GenProperties.v
theories/SealModel.v
theories/SealSpec.v
theories/SealProofs.v
theories/SealProperties.v
theories/PoolModel.v
theories/PoolSpec.v
theories/PoolProofs.v
theories/PoolProperties.v
theories/OcModel.v
theories/OcSpec.v
theories/OcProofs.v
theories/OcFinal.v
theories/OcProperties.v
theories/MiModel.v
theories/MiSpec.v
theories/MiProofs.v
theories/MiProperties.v
theories/LimSpec.v
theories/LimProofs.v
theories/LimProperties.v
theories/LeaveSpec.v
theories/LeaveProofs.v
theories/LeaveProperties.v
theories/CoModel.v
theories/CoSpec.v
theories/CoProofs.v
theories/CoProperties.v
theories/ConsentSpec.v
theories/ConsentProofs.v
theories/ConsentProperties.v
theories/ClosedSpec.v
theories/ClosedProofs.v
theories/ClosedProperties.v
theories/ErasureSpec.v
theories/ErasureProofs.v
theories/ErasureProperties.v
theories/TrustSpec.v
theories/TrustProofs.v
theories/TrustProperties.v
theories/SpendSpec.v
theories/SpendProofs.v
theories/SpendProperties.v
theories/WipeProofs.v
theories/WipeProperties.v
theories/RulesSpec.v
theories/RulesProofs.v
theories/RulesProperties.v
theories/FundsSpec.v
theories/FundsProofs.v
theories/FundsProperties.v
theories/SlotsSpec.v
theories/SlotsProofs.v
theories/SlotsProperties.v
theories/HogSpec.v
theories/HogProofs.v
theories/HogProperties.v
theories/FreeSpec.v
theories/FreeProofs.v
theories/FreeProperties.v
theories/SendSpec.v
theories/SendProofs.v
theories/SendProperties.v
