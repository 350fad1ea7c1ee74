-Q theories Verif
theories/Base.v
theories/SemverModel.v
theories/SemverFacts.v
theories/OsvModel.v
theories/OsvSpec.v
theories/OsvProofs.v
theories/OsvProofs2.v
theories/OsvProofs3.v
theories/OsvProofs4.v
theories/OsvProofs5.v
theories/OsvProofs6.v
theories/PropsOsv.v
theories/StrLib.v
theories/IdModel.v
theories/IdSpec.v
theories/IdProofs.v
theories/PropsId.v
theories/PkgModel.v
theories/DbModel.v
theories/DbSpec.v
theories/DbProofs.v
theories/DbProofs2.v
theories/PropsDb.v
theories/VerText.v
theories/UrlModel.v
theories/UrlSpec.v
theories/UrlProofs.v
theories/SumModel.v
theories/PropsSource.v
theories/LockModel.v
theories/LockSpec.v
theories/LockProofs.v
theories/PropsLock.v
theories/TreeModel.v
theories/TreeSpec.v
theories/TreeProofs.v
theories/PropsTree.v
theories/PlatData.v
theories/PlatModel.v
theories/PlatSpec.v
theories/PropsPlat.v
theories/IndexModel.v
theories/IndexSpec.v
theories/PropsIndex.v
theories/AuditModel.v
theories/AuditSpec.v
theories/AuditProofs.v
theories/PropsAudit.v
theories/PropsAudit2.v
theories/PropsAudit3.v
theories/PropsAudit4.v
theories/PropsAudit5.v
theories/PropsAudit6.v
theories/PropsAudit7.v
theories/PartsModel.v
theories/PartsSpec.v
theories/PropsParts.v
theories/SarifModel.v
theories/PropsSarif.v
theories/ScanModel.v
theories/PropsScan.v
theories/PropsScan2.v
theories/CvssText.v
theories/CvssSpec.v
theories/CvssTextProofs.v
theories/PropsCvssText.v
theories/CvssFloat.v
theories/CvssScoreSpec.v
theories/Cvss3.v
theories/PropsCvss3.v
theories/Cvss2.v
theories/PropsCvss2.v
theories/Cvss4Data.v
theories/Cvss4.v
theories/Cvss4Spec.v
theories/Cvss4Proofs.v
theories/Cvss4Tables.v
theories/Cvss4Score.v
theories/PropsCvss4.v
theories/AssignModel.v
theories/AssignSpec.v
theories/AssignProofs.v
theories/PropsAssign.v
theories/AdvModel.v
theories/LintModel.v
theories/LintSpec.v
theories/LintProofs.v
theories/LintProofs2.v
theories/PropsLint.v
theories/MtimeModel.v
theories/PropsMtime.v
theories/OsvAdvModel.v
theories/OsvAdvSpec.v
theories/OsvAdvProofs.v
theories/SortProofs.v
theories/PropsOsvAdv.v
theories/PropsOsvAdv2.v
theories/PropsOsvImport.v
theories/AdminModel.v
theories/PropsExportAll.v
theories/PropsAdminLint.v
theories/SyncModel.v
theories/PropsSync.v
theories/PropsSync2.v
theories/PropsSync3.v
theories/LockCliModel.v
theories/LockCliSpec.v
theories/PropsLockCli.v
theories/PropsLockCli2.v
theories/WebModel.v
theories/WebSpec.v
theories/WebProofs.v
theories/Calendar.v
theories/PropsWeb.v
theories/PropsWeb2.v
theories/PropsWeb3.v
theories/PropsAssign2.v
theories/DecodeSpec.v
theories/PropsDecode.v
theories/PropsDecode2.v
theories/JsonSpec.v
theories/PropsOsvAdv3.v
theories/ConfigModel.v
theories/ConfigSpec.v
theories/PropsConfig.v
theories/FetchModel.v
theories/FetchSpec.v
theories/PropsFetch.v
theories/PropsFetch2.v
theories/PropsWeb4.v
theories/ReportJsonModel.v
theories/ReportJsonSpec.v
theories/PropsReportJson.v
theories/PropsReportJson2.v
theories/PropsReportJson3.v
theories/PropsReportJson4.v
theories/PropsReportJson5.v
theories/SeverityModel.v
theories/PropsSeverity.v
theories/PropsCrash.v
theories/SarifJsonModel.v
theories/SarifJsonSpec.v
theories/PropsSarifJson.v
theories/PropsSarifJson2.v
theories/PropsAssign3.v
theories/LintFullSpec.v
theories/PropsLintFull.v
theories/PropsLintFull2.v
theories/PropsOsvAdv4.v
theories/TermModel.v
theories/TermSpec.v
theories/PropsTerm.v
theories/PropsTerm2.v
theories/PropsTerm3.v
theories/PropsSource2.v
theories/PropsReportJson6.v
theories/PlatGenModel.v
theories/PlatGenSpec.v
theories/PropsPlatGen.v
theories/PropsPlatGen2.v
theories/PropsPlatGen3.v
theories/PropsPlatGen4.v
theories/PropsPlatGen5.v
theories/CvssMonoSpec.v
theories/Cvss4Mono.v
theories/PropsCvss4Mono.v
theories/PropsCvss2Mono.v
theories/PlatNameSpec.v
theories/PropsSource3.v
theories/PropsPlatGen6.v
theories/ReqText.v
theories/ReqSpec.v
theories/PropsReq.v
theories/PropsReq2.v
theories/PropsReq3.v
theories/PropsReq4.v
theories/ConcModel.v
theories/PropsConc.v
theories/PropsConc2.v
theories/PropsConc3.v
theories/MatchSpec.v
theories/PropsMatch.v
theories/PropsMatch2.v
theories/PropsWords.v
theories/PropsWeb5.v
theories/TableGenModel.v
theories/TableGenSpec.v
theories/PropsTableGen.v
theories/OsvLineSpec.v
theories/PropsOsvExact.v
theories/PropsIdExact.v
theories/FetchHeadModel.v
theories/FetchHeadSpec.v
theories/PropsFetchHead.v
theories/LocateModel.v
theories/LocateSpec.v
theories/PropsLocate.v
theories/PropsSource4.v
theories/CargoLockModel.v
theories/PropsCargoLock.v
theories/FixModel.v
theories/PropsFix.v
theories/SourceIdModel.v
theories/PropsSourceId.v
theories/EmptyDirModel.v
theories/PropsEmptyDir.v
theories/WaitModel.v
theories/PropsWait.v
theories/PropsMetaKey.v
theories/LockTextModel.v
theories/PropsLockText.v
