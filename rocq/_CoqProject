-Q theories Verif
theories/Base.v
theories/BaseProofs.v
theories/ModelLabel.v
theories/SpecLabel.v
theories/ProofsLabel.v
theories/PropsLabel.v
theories/ModelCalendar.v
theories/SpecCalendar.v
theories/ProofsCalendar.v
theories/PropsCalendar.v
theories/ModelState.v
theories/SpecState.v
theories/ProofsState.v
theories/PropsState.v
theories/ModelScheduler.v
theories/ProofsScheduler.v
theories/PropsScheduler.v
theories/ModelLinkVector.v
theories/SpecLinkVector.v
theories/ProofsLinkVector.v
theories/PropsLinkVector.v
theories/ModelAuthz.v
theories/ProofsAuthz.v
theories/PropsAuthz.v
theories/ModelProvreg.v
theories/ProofsProvreg.v
theories/PropsProvreg.v
theories/ModelXml.v
theories/ModelErrors.v
theories/SpecErrors.v
theories/ProofsErrors.v
theories/PropsErrors.v
theories/ModelSTP.v
theories/SpecSTP.v
theories/ProofsSTP.v
theories/PropsSTP.v
theories/ModelHeader.v
theories/ProofsHeader.v
theories/PropsHeader.v
theories/ModelNRM.v
theories/SpecNRM.v
theories/ProofsNRM.v
theories/PropsNRM.v
theories/ModelRequester.v
theories/SpecRequester.v
theories/ProofsRequester.v
theories/PropsRequester.v
theories/ModelProvider.v
theories/SpecProvider.v
theories/ProofsProvider.v
theories/PropsProvider.v
theories/ModelBackend.v
theories/SpecBackend.v
theories/ProofsBackendWp.v
theories/ProofsBackendGrow.v
theories/ProofsBackendFoc.v
theories/ProofsBackendOps.v
theories/ProofsBackendInv.v
theories/ProofsBackendRow.v
theories/ProofsBackendApi.v
theories/ProofsBackendFire.v
theories/ProofsBackendAdmission.v
theories/ProofsBackendReserve.v
theories/ProofsBackendRestart.v
theories/ProofsBackendSerial.v
theories/ProofsBackendReserve2.v
theories/ProofsBackendBusy.v
theories/PropsBackend.v
theories/ModelPlugins.v
theories/SpecPlugins.v
theories/ProofsPlugins.v
theories/PropsPlugins.v
theories/ModelDiscovery.v
theories/SpecDiscovery.v
theories/ProofsDiscovery.v
theories/PropsDiscovery.v
theories/ModelTime.v
theories/SpecTime.v
theories/ProofsTimeCycle.v
theories/ProofsTime.v
theories/ProofsTimeText.v
theories/PropsTime.v
theories/ModelHttpRes.v
theories/SpecHttpRes.v
theories/ProofsHttpRes.v
theories/PropsHttpRes.v
theories/ModelQueryHelper.v
theories/SpecQueryHelper.v
theories/ProofsQueryHelper.v
theories/PropsQueryHelper.v
theories/ModelRest.v
theories/SpecRest.v
theories/ProofsRest.v
theories/ProofsRestWatch.v
theories/PropsRest.v
theories/ModelNml.v
theories/SpecNml.v
theories/ProofsNml.v
theories/PropsNml.v
theories/ModelAggregator.v
theories/ModelBackendQuery.v
theories/SpecAggregator.v
theories/ProofsAggregator.v
theories/ProofsAggPath.v
theories/ProofsAggOps.v
theories/ProofsAggClean.v
theories/ProofsAggQuery.v
theories/ProofsAggKinds.v
theories/PropsAggregator.v
theories/SpecAggInv.v
theories/ProofsAggInv.v
theories/ProofsAggTab.v
theories/ProofsAggAct.v
theories/ProofsAggHelp.v
theories/ProofsAggRun.v
theories/ProofsAggRun2.v
theories/ProofsAggQRun.v
theories/ProofsAggTokens.v
theories/ProofsAggOrder.v
theories/PropsAggInv.v
theories/ModelBackendConc.v
theories/SpecBackendConc.v
theories/ProofsConcWp.v
theories/ProofsConcGen.v
theories/ProofsConcEnd.v
theories/ProofsConcSetup.v
theories/ProofsConcRefuse.v
theories/PropsBackendConc.v
theories/ModelMessages.v
theories/SpecMessages.v
theories/ProofsMessages.v
theories/PropsMessages.v
theories/ModelSoapCall.v
theories/SpecSoapCall.v
theories/ProofsSoapCall.v
theories/PropsSoapCall.v
theories/ModelHttpClient.v
theories/SpecHttpClient.v
theories/ProofsHttpClient.v
theories/PropsHttpClient.v
theories/ModelConfig.v
theories/SpecConfig.v
theories/ProofsConfig.v
theories/PropsConfig.v
theories/ModelSetup.v
theories/SpecSetup.v
theories/ProofsSetup.v
theories/ProofsLearn.v
theories/PropsSetup.v
theories/ModelDrivers.v
theories/SpecDrivers.v
theories/ProofsDrivers.v
theories/ProofsSwitches.v
theories/ProofsJoined.v
theories/PropsDrivers.v
theories/ModelJunos.v
theories/SpecJunos.v
theories/ProofsJunos.v
theories/ProofsJunosEx.v
theories/ProofsDriversUp.v
theories/PropsJunos.v
theories/SpecDeployment.v
theories/ProofsBackendPairs.v
theories/ProofsDeployment.v
theories/PropsDeployment.v
theories/ModelChannel.v
theories/SpecChannel.v
theories/ProofsChannel.v
theories/ProofsTalks.v
theories/PropsChannel.v
theories/ModelSession.v
theories/SpecSession.v
theories/ProofsSession.v
theories/ProofsSessionReq.v
theories/ProofsSessionEnd.v
theories/PropsSession.v
theories/ModelRestGet.v
theories/SpecRestGet.v
theories/ProofsRestGet.v
theories/PropsRestGet.v
theories/ModelTls.v
theories/SpecTls.v
theories/ProofsTls.v
theories/PropsTls.v
theories/ModelOess.v
theories/SpecOess.v
theories/ProofsOess.v
theories/ProofsOessInv.v
theories/ProofsOessStep.v
theories/ProofsOessCan.v
theories/PropsOess.v
theories/ModelCli.v
theories/SpecCli.v
theories/ProofsCli.v
theories/ProofsCliPlan.v
theories/ProofsCliRun.v
theories/PropsCli.v
theories/ModelManager.v
theories/SpecManager.v
theories/ProofsManager.v
theories/ProofsManagers.v
theories/PropsManager.v
theories/ModelService.v
theories/SpecService.v
theories/ProofsServiceWp.v
theories/ProofsServiceInv.v
theories/ProofsServiceProg.v
theories/ProofsService.v
theories/PropsService.v
theories/PropsEnds.v
theories/ModelSpace.v
theories/SpecSpace.v
theories/ProofsSpace.v
theories/PropsSpace.v
theories/ProofsConcKept.v
theories/SpecDevice.v
theories/ProofsDevice.v
theories/PropsDevice.v
theories/ModelTopo.v
theories/SpecTopo.v
theories/ProofsTopo.v
theories/ProofsTopoPath.v
theories/PropsTopo.v
theories/ModelPage.v
theories/SpecPage.v
theories/ProofsPage.v
theories/PropsPage.v
theories/ModelVpls.v
theories/SpecVpls.v
theories/ProofsVpls.v
theories/PropsVpls.v
theories/SpecForce10.v
theories/SpecHeader.v
theories/ProofsHeaderDoc.v
theories/PropsHeaderDoc.v
theories/SpecDocument.v
theories/ProofsDocument.v
theories/PropsDocument.v
theories/SpecNmlDoc.v
theories/ProofsNmlDoc.v
theories/PropsNmlDoc.v
theories/SpecVplsRouter.v
theories/ProofsVplsRouter.v
theories/PropsVplsRouter.v
theories/SpecResults.v
theories/ProofsResults.v
theories/PropsResults.v
theories/ModelCliShow.v
theories/SpecCliShow.v
theories/ProofsCliShow.v
theories/PropsCliShow.v
theories/ModelConnId.v
theories/SpecConnId.v
theories/ProofsConnId.v
theories/PropsConnId.v
theories/SpecSegment.v
theories/ProofsSegment.v
theories/PropsSegment.v
