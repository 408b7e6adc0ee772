-Q theories Verif
theories/Base.v
theories/Json.v
theories/TufModel.v
theories/TufSpec.v
theories/TufProofs.v
theories/TufProofs2.v
theories/TimeSpec.v
theories/TimeProofs.v
theories/MetaStore.v
theories/RepoModel.v
theories/RepoSpec.v
theories/RepoProofs.v
theories/RepoProofs2.v
theories/RepoProofs3.v
theories/RepoProofs4.v
theories/RepoProofs5.v
theories/RepoProofs6.v
theories/RepoProofs7.v
theories/RepoProofs8.v
theories/Toy.v
theories/PropsTuf.v
theories/PropsRepo.v
theories/ClientModel.v
theories/ClientSpec.v
theories/ClientProofs.v
theories/ClientProofs2.v
theories/PropsClient.v
theories/CodecModel.v
theories/CodecSpec.v
theories/CodecProofs.v
theories/CerModel.v
theories/CerProofs.v
theories/CerProofs2.v
theories/CerProofs3.v
theories/PropsCodec.v
theories/InstModel.v
theories/InstSpec.v
theories/InstProofs.v
theories/InstProofs2.v
theories/PropsInst.v
theories/DlModel.v
theories/DlSpec.v
theories/DlProofs.v
theories/DlProofs2.v
theories/PropsDl.v
theories/ReportModel.v
theories/ReportSpec.v
theories/ReportProofs.v
theories/PropsReport.v
theories/CqModel.v
theories/CqSpec.v
theories/CqProofs.v
theories/PropsCq.v
theories/BufModel.v
theories/BufSpec.v
theories/BufProofs.v
theories/BufProofs2.v
theories/PropsBuf.v
theories/SecFileModel.v
theories/SecFileSpec.v
theories/SecFileProofs.v
theories/PropsSecFile.v
theories/DevModel.v
theories/DevSpec.v
theories/DevProofs.v
theories/DevProofs2.v
theories/DevProofs3.v
theories/PropsDev.v
theories/BootModel.v
theories/BootSpec.v
theories/BootProofs.v
theories/PropsBoot.v
theories/InitModel.v
theories/InitSpec.v
theories/InitProofs.v
theories/InitProofs2.v
theories/PropsInit.v
theories/CleanModel.v
theories/CleanSpec.v
theories/CleanProofs.v
theories/PropsClean.v
theories/FileModel.v
theories/FileSpec.v
theories/FileProofs.v
theories/PropsFile.v
theories/MigModel.v
theories/MigSpec.v
theories/MigProofs.v
theories/PropsMig.v
theories/RateModel.v
theories/RateSpec.v
theories/PropsRate.v
theories/PushModel.v
theories/PushSpec.v
theories/PushProofs.v
theories/PushProofs2.v
theories/PushProofs3.v
theories/PushProofs4.v
theories/PushProofs5.v
theories/PushProofs6.v
theories/PushProofs7.v
theories/PushProofs8.v
theories/PropsPush.v
theories/SndModel.v
theories/SndSpec.v
theories/SndProofs.v
theories/PropsSnd.v
theories/ParseSpec.v
theories/ParseProofs.v
theories/PropsParse.v
theories/InstLogProofs.v
theories/PropsInstLog.v
theories/UpdModel.v
theories/UpdSpec.v
theories/UpdProofs.v
theories/UpdProofs2.v
theories/UpdProofs3.v
theories/UpdProofs4.v
theories/UpdProofs5.v
theories/UpdProofs6.v
theories/PropsUpd.v
theories/CycModel.v
theories/CycSpec.v
theories/CycProofs.v
theories/CycProofs2.v
theories/CycProofs3.v
theories/CycProofs4.v
theories/CycProofs5.v
theories/PropsCyc.v
theories/ChkSpec.v
theories/ChkProofs.v
theories/PropsChk.v
theories/IterModel.v
theories/IterSpec.v
theories/IterProofs.v
theories/IterProofs2.v
theories/PropsIter.v
theories/RechkSpec.v
theories/RechkProofs.v
theories/RechkProofs2.v
theories/RechkProofs3.v
theories/PropsRechk.v
theories/LiveSpec.v
theories/LiveProofs.v
theories/LiveProofs2.v
theories/PropsLive.v
theories/OrdSpec.v
theories/OrdProofs.v
theories/OrdProofs2.v
theories/OrdProofs3.v
theories/PropsOrd.v
theories/IpModel.v
theories/IpSpec.v
theories/IpProofs.v
theories/IpProofs2.v
theories/IpProofs3.v
theories/PropsIp.v
theories/CrashProofs.v
theories/PropsCrash.v
theories/DataModel.v
theories/DataSpec.v
theories/DataProofs.v
theories/PropsData.v
theories/VirtModel.v
theories/VirtSpec.v
theories/VirtProofs.v
theories/PropsVirt.v
theories/ConvModel.v
theories/ConvSpec.v
theories/ConvProofs.v
theories/ConvProofs2.v
theories/ConvProofs3.v
theories/ConvProofs4.v
theories/PropsConv.v
theories/GenModel.v
theories/GenSpec.v
theories/GenProofs.v
theories/GenProofs2.v
theories/GenProofs3.v
theories/GenProofs4.v
theories/GenProofs5.v
theories/GenProofs6.v
theories/GenProofs7.v
theories/GenProofs8.v
theories/GenProofs9.v
theories/GenProofs10.v
theories/GenProofs11.v
theories/GenProofs12.v
theories/GenProofs13.v
theories/GenProofs14.v
theories/GenToy.v
theories/GenToy2.v
theories/PropsGen.v
theories/GenSpec2.v
theories/GenProofs15.v
theories/GenProofs16.v
theories/GenProofs17.v
theories/GenProofs18.v
theories/PropsGen2.v
theories/DeployModel.v
theories/DeploySpec.v
theories/DeployProofs.v
theories/DeployProofs2.v
theories/PropsDeploy.v
theories/ConfModel.v
theories/ConfSpec.v
theories/ConfProofs.v
theories/ConfProofs2.v
theories/ConfProofs3.v
theories/ConfProofs4.v
theories/ConfProofs5.v
theories/ConfProofs6.v
theories/PropsConf.v
theories/RollModel.v
theories/RollSpec.v
theories/RollProofs.v
theories/PropsRoll.v
theories/LoopModel.v
theories/LoopSpec.v
theories/LoopProofs.v
theories/PropsLoop.v
theories/CampModel.v
theories/CampSpec.v
theories/CampProofs.v
theories/PropsCamp.v
theories/HttpModel.v
theories/HttpSpec.v
theories/HttpProofs.v
theories/PropsHttp.v
theories/IpsModel.v
theories/IpsSpec.v
theories/IpsProofs.v
theories/PropsIps.v
theories/ArcModel.v
theories/ArcSpec.v
theories/ArcProofs.v
theories/PropsArc.v
theories/CertModel.v
theories/CertSpec.v
theories/CertProofs.v
theories/PropsCert.v
theories/CliModel.v
theories/PropsCli.v
theories/KmModel.v
theories/PropsKm.v
theories/InfoModel.v
theories/PropsInfo.v
theories/TlsModel.v
theories/PropsTls.v
theories/FetchModel.v
theories/PropsFetch.v
theories/EcuModel.v
theories/PropsEcu.v
theories/P11Model.v
theories/PropsP11.v
theories/VsecModel.v
theories/PropsVsec.v
theories/CerStreamModel.v
theories/CerStreamSpec.v
theories/CerStreamProofs.v
theories/PropsCerStream.v
theories/DirModel.v
theories/LockModel.v
theories/PropsDir.v
theories/PropsLock.v
theories/NetModel.v
theories/PropsNet.v
theories/LifeModel.v
theories/PropsLife.v
theories/PropsDlg.v
theories/IdModel.v
theories/PropsId.v
theories/PauseModel.v
theories/PropsPause.v
theories/LegacyModel.v
theories/PropsLegacy.v
theories/OsModel.v
theories/PropsOs.v
theories/SecTabModel.v
theories/PropsSecTab.v
theories/GuardModel.v
theories/PropsGuard.v
theories/TextModel.v
theories/PropsText.v
theories/ShellModel.v
theories/PropsShell.v
theories/MemModel.v
theories/PropsMem.v
theories/AddrModel.v
theories/AddrSpec.v
theories/AddrProofs.v
theories/PropsAddr.v
theories/PropsTuf2.v
theories/XmlModel.v
theories/XmlSpec.v
theories/PropsXml.v
theories/PropsCodec2.v
theories/RepEvtModel.v
theories/RepEvtSpec.v
theories/PropsRepEvt.v
theories/ReadModel.v
theories/PropsRead.v
