-Q theories Verif

theories/Base.v
theories/State.v
theories/Layout.v
theories/Constr.v
theories/Ext.v
theories/ExtLen.v
theories/World.v
theories/Proc.v
theories/Borsh.v
theories/Proxy.v
theories/Client.v
theories/Bridge.v
theories/Js.v
theories/Rs.v
theories/BridgeC.v
theories/BaseL.v
theories/Spec.v
theories/SpecB.v
theories/SpecH.v
theories/SpecG.v
theories/SpecC.v
theories/SpecI.v
theories/SpecP.v
theories/SpecK.v
theories/SpecL.v
theories/SpecD.v
theories/SpecR.v
theories/SpecW.v
theories/SpecX.v
theories/SpecY.v
theories/SpecZ.v
theories/SpecV.v
theories/SpecE.v
theories/SpecF.v
theories/SpecM.v
theories/SpecN.v
theories/Cpi.v
theories/SpecO.v
theories/ProxyC.v
theories/Idl.v
theories/SpecQ.v
theories/SpecT.v
theories/SpecJ.v
theories/WorldL.v
theories/ProcSteps.v
theories/FrameL.v
theories/LayoutL.v
theories/LayoutM.v
theories/LayoutE.v
theories/HeadL.v
theories/CreatorsL.v
theories/AuthL.v
theories/AuthM.v
theories/AllocL.v
theories/AllocM.v
theories/GroupL.v
theories/ValidL.v
theories/AllocC.v
theories/CreateL.v
theories/BuildL.v
theories/ResizeL.v
theories/UpdateL.v
theories/UpdateM.v
theories/UpdateT.v
theories/StepL.v
theories/RemoveL.v
theories/StepH.v
theories/BornL.v
theories/HistL.v
theories/TheftL.v
theories/CountL.v
theories/CountM.v
theories/CountH.v
theories/VerifyL.v
theories/ConstrL.v
theories/RoyalL.v
theories/ReadsL.v
theories/CodecL.v
theories/BorshL.v
theories/ProxyL.v
theories/ProxyM.v
theories/ClientL.v
theories/ClientM.v
theories/BridgeL.v
theories/BridgeM.v
theories/RolesL.v
theories/ExactL.v
theories/ExactM.v
theories/AcceptL.v
theories/ExactN.v
theories/ExactO.v
theories/ExactP.v
theories/LiveL.v
theories/GrowL.v
theories/OverL.v
theories/TailL.v
theories/ProxyN.v
theories/ProxyO.v
theories/ProxyQ.v
theories/BridgeN.v
theories/BridgeO.v
theories/SquatL.v
theories/StuntL.v
theories/DeclL.v
theories/RsL.v
theories/TopL.v
theories/JsL.v
theories/JsM.v
theories/JsN.v
theories/JsO.v
theories/JsP.v
theories/JsQ.v
theories/JsR.v
theories/BridgeQ.v
theories/NewerL.v
theories/CpiL.v
theories/ProxyR.v
theories/IdlL.v
theories/Sample.v
theories/SampleP.v
theories/SampleB.v
theories/SampleE.v
theories/ThmAuth.v
theories/ThmFrame.v
theories/ThmLayout.v
theories/ThmBuild.v
theories/ThmUpdate.v
theories/ThmHist.v
theories/ThmRemove.v
theories/ThmGroup.v
theories/ThmCreators.v
theories/ThmConstr.v
theories/ThmCodec.v
theories/ThmInstr.v
theories/ThmProxy.v
theories/ThmClient.v
theories/ThmBridge.v
theories/ThmExact.v
theories/ThmExactB.v
theories/ThmJs.v
theories/ThmJsB.v
theories/ThmLive.v
theories/ThmDecl.v
theories/ThmExactC.v
theories/ThmBridgeB.v
theories/ThmStunt.v
theories/ThmBirth.v
theories/ThmBridgeC.v
theories/ThmProxyB.v
theories/ThmNewer.v
theories/ThmCpi.v
theories/ThmProxyC.v
theories/ThmIdl.v
theories/SpecU.v
theories/ReasonL.v
theories/ThmReason.v
theories/Codes.v
theories/ThmCodes.v
theories/SpecS.v
theories/RegL.v
theories/RegM.v
theories/RegN.v
theories/RegO.v
theories/RegP.v
theories/ThmReg.v
theories/SpecLoc.v
theories/LocL.v
theories/LocM.v
theories/LocN.v
theories/ThmLoc.v
theories/SpecJs.v
theories/HelpL.v
theories/ThmHelp.v
theories/SpecView.v
theories/ViewL.v
theories/ViewM.v
theories/ThmView.v
theories/SpecRent.v
theories/RentL.v
theories/RemoveT.v
theories/WreckL.v
theories/ThmLoss.v
theories/ThmRent.v
theories/SpecTake.v
theories/TakeL.v
theories/AgainL.v
theories/AgainM.v
theories/ThmTake.v
theories/AgainN.v
theories/AgainO.v
theories/ThmAgain.v
theories/ThmAgainB.v
theories/SpecSince.v
theories/SinceL.v
theories/ThmSince.v
theories/Desc.v
theories/DescData.v
theories/SpecDesc.v
theories/DescL.v
theories/DescM.v
theories/DescN.v
theories/DescO.v
theories/ThmDesc.v
theories/SpecHas.v
theories/HasL.v
theories/ThmHas.v
theories/SpecSafe.v
theories/SafeL.v
theories/SafeM.v
theories/SafeN.v
theories/SafeO.v
theories/SafeP.v
theories/ThmSafe.v
theories/SpecCalm.v
theories/CalmL.v
theories/CalmM.v
theories/CalmN.v
theories/CalmO.v
theories/CalmP.v
theories/CalmQ.v
theories/SpecCalmB.v
theories/CalmR.v
theories/ThmCalm.v
theories/ThmCalmB.v
theories/ThmCalmC.v
theories/ThmCalmD.v
