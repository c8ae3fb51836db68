-Q theories Verif
theories/PyBase.v
theories/HarvModel.v
theories/HarvSpec.v
theories/HarvOptProofs.v
theories/HarvVocProofs.v
theories/HarvCvProofs.v
theories/HarvExtProofs.v
theories/PropsHarv.v
theories/PropsExt.v
theories/UartModel.v
theories/UartSpec.v
theories/UartProofs.v
theories/UartInitProofs.v
theories/PropsUart.v
theories/FileModel.v
theories/FileSpec.v
theories/FileSysProofs.v
theories/FileDataProofs.v
theories/FileReadProofs.v
theories/FileSiProofs.v
theories/PropsFile.v
theories/FileMoreProofs.v
theories/PropsFileMore.v
theories/FixModel.v
theories/FixSpec.v
theories/FixProofs.v
theories/PropsFix.v
theories/TbModel.v
theories/TbSpec.v
theories/TbProofs.v
theories/PropsTb.v
theories/FwModel.v
theories/FwSpec.v
theories/FwProofs.v
theories/PropsFw.v
theories/FwMoreSpec.v
theories/FwMoreProofs.v
theories/PropsFwMore.v
theories/DsModel.v
theories/DsSpec.v
theories/DsProofs.v
theories/DsFileProofs.v
theories/DsCliProofs.v
theories/PropsDs.v
theories/F64.v
theories/CalModel.v
theories/CalSpec.v
theories/CalProofs.v
theories/CalHwProofs.v
theories/CalExpProofs.v
theories/CalByteProofs.v
theories/CalDefProofs.v
theories/PropsCal.v
theories/F64x.v
theories/ConvModel.v
theories/ConvSpec.v
theories/ConvProofs.v
theories/ConvStepProofs.v
theories/ConvRunProofs.v
theories/ConvSrcProofs.v
theories/ConvEnergyProofs.v
theories/PropsConv.v
theories/CfgModel.v
theories/CfgSpec.v
theories/CfgHrvProofs.v
theories/CfgSrcProofs.v
theories/CfgDropProofs.v
theories/PropsCfg.v
theories/TgtModel.v
theories/TgtSpec.v
theories/TgtProofs.v
theories/TgtDiodeProofs.v
theories/TgtEventProofs.v
theories/TgtMathProofs.v
theories/TgtSolveProofs.v
theories/TgtConvProofs.v
theories/PropsTgt.v
theories/SimModel.v
theories/SimSpec.v
theories/SimProofs.v
theories/SimLoopProofs.v
theories/SimFeedProofs.v
theories/SimTgtProofs.v
theories/SimHrvProofs.v
theories/PropsSim.v
theories/IvoModel.v
theories/IvoSpec.v
theories/IvoUpProofs.v
theories/IvoProofs.v
theories/IvoGridProofs.v
theories/IvoFileProofs.v
theories/PropsIvo.v
theories/MeaModel.v
theories/MeaSpec.v
theories/MeaProofs.v
theories/PropsMea.v
theories/StoModel.v
theories/StoSpec.v
theories/StoProofs.v
theories/PropsSto.v
theories/RepModel.v
theories/RepSpec.v
theories/RepProofs.v
theories/PropsRep.v
theories/BaudModel.v
theories/BaudSpec.v
theories/BaudProofs.v
theories/PropsBaud.v
theories/EnvModel.v
theories/EnvSpec.v
theories/EnvProofs.v
theories/PropsEnv.v
theories/HeapModel.v
theories/HeapSpec.v
theories/HeapProofs.v
theories/PropsHeap.v
theories/NameModel.v
theories/NameSpec.v
theories/NameProofs.v
theories/PropsName.v
theories/PlotModel.v
theories/PlotSpec.v
theories/PlotProofs.v
theories/PlotFileProofs.v
theories/PropsPlot.v
theories/ExtModel.v
theories/ExtSpec.v
theories/ExtProofs.v
theories/ExtFileProofs.v
theories/PropsExtract.v
theories/MendModel.v
theories/MendSpec.v
theories/MendProofs.v
theories/PropsMend.v
theories/LinkModel.v
theories/LinkSpec.v
theories/LinkProofs.v
theories/LinkDrawProofs.v
theories/PropsLink.v
theories/IterModel.v
theories/IterSpec.v
theories/IterProofs.v
theories/PropsIter.v
theories/PinModel.v
theories/PinSpec.v
theories/PinProofs.v
theories/PropsPin.v
theories/VerbModel.v
theories/VerbSpec.v
theories/VerbProofs.v
theories/PropsVerb.v
theories/WebModel.v
theories/WebSpec.v
theories/WebProofs.v
theories/PropsWeb.v
theories/PrimeModel.v
theories/PrimeSpec.v
theories/PrimeProofs.v
theories/PropsPrime.v
theories/EenvModel.v
theories/EenvSpec.v
theories/EenvProofs.v
theories/PropsEenv.v
theories/DumpModel.v
theories/DumpSpec.v
theories/DumpProofs.v
theories/PropsDump.v
theories/LayModel.v
theories/LaySpec.v
theories/LayProofs.v
theories/PropsLay.v
theories/AgainProofs.v
theories/PropsAgain.v
theories/TargetModel.v
theories/TargetSpec.v
theories/TargetProofs.v
theories/PropsTarget.v
theories/StartModel.v
theories/StartSpec.v
theories/StartProofs.v
theories/PropsStart.v
theories/ProgSpec.v
theories/ProgProofs.v
theories/PropsProg.v
theories/GetModel.v
theories/GetProofs.v
theories/PropsGet.v
theories/InvModel.v
theories/InvSpec.v
theories/InvProofs.v
theories/PropsInv.v
theories/ShipData.v
theories/ShipModel.v
theories/ShipSpec.v
theories/ShipProofs.v
theories/ShipOwn.v
theories/ShipPlain.v
theories/ShipRun.v
theories/PropsShip.v
theories/BedData.v
theories/BedModel.v
theories/BedSpec.v
theories/BedProofs.v
theories/BedLimits.v
theories/BedTarget.v
theories/PropsBed.v
theories/SumModel.v
theories/SumSpec.v
theories/SumProofs.v
theories/SumSimProofs.v
theories/PropsSum.v
theories/AuxModel.v
theories/AuxSpec.v
theories/AuxProofs.v
theories/PropsAux.v
theories/AddModel.v
theories/AddProofs.v
theories/PropsAdd.v
