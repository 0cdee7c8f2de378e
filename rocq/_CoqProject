-Q theories Verif
theories/ModelStr.v
theories/ModelSort.v
theories/ProofsSort.v
theories/ModelLabels.v
theories/ModelPage.v
theories/ProofsStr.v
theories/SpecPage.v
theories/ProofsPage.v
theories/ProofsQuote.v
theories/PropsSearch.v
theories/SpecLabels.v
theories/ProofsLabels.v
theories/ProofsParse.v
theories/ProofsSel.v
theories/ProofsSemi.v
theories/PropsSelector.v
theories/ModelJson.v
theories/ModelQuery.v
theories/ProofsB64.v
theories/ProofsJson.v
theories/ProofsQuery.v
theories/PropsQuery.v
theories/ModelStore.v
theories/SpecStore.v
theories/ProofsStore.v
theories/ProofsQueryStore.v
theories/ProofsIndex.v
theories/ProofsSortText.v
theories/ProofsGauge.v
theories/ProofsListing.v
theories/PropsStore.v
theories/PropsStore2.v
theories/PropsStore3.v
theories/ModelUrl.v
theories/ProofsUrl.v
theories/ModelJsonText.v
theories/ProofsJsonText.v
theories/ModelProxy.v
theories/SpecProxy.v
theories/ProofsProxy.v
theories/PropsProxy.v
theories/SpecList.v
theories/ProofsList.v
theories/PropsList.v
theories/PropsCluster.v
theories/SpecTable.v
theories/ProofsTable.v
theories/PropsTable.v
theories/PropsWatch.v
theories/ModelServer.v
theories/SpecServer.v
theories/ProofsServer.v
theories/PropsServer.v
theories/ModelExtend.v
theories/SpecExtend.v
theories/ProofsExtend.v
theories/PropsExtend.v
theories/ModelWatcher.v
theories/SpecWatcher.v
theories/ProofsWatcher.v
theories/PropsWatcher.v
theories/ModelObjType.v
theories/ProofsJsonParse.v
theories/SpecObjType.v
theories/ProofsObjType.v
theories/PropsObjType.v
theories/ProofsJsonExt.v
theories/ModelFake.v
theories/SpecFake.v
theories/ProofsFake.v
theories/PropsFake.v
theories/ModelPlugin.v
theories/SpecPlugin.v
theories/ProofsPlugin.v
theories/PropsPlugin.v
theories/ModelReload.v
theories/SpecReload.v
theories/ProofsReload.v
theories/PropsReload.v
theories/ModelConc.v
theories/SpecConc.v
theories/ProofsConc.v
theories/PropsConc.v
theories/ModelServe.v
theories/SpecServe.v
theories/PropsServe.v
theories/PropsStop.v
theories/ModelGauge.v
theories/PropsGauge.v
theories/ModelCli.v
theories/SpecCli.v
theories/ProofsCli.v
theories/PropsCli.v
theories/ModelFakeServer.v
theories/SpecFakeServer.v
theories/ProofsFakeServer.v
theories/ProofsFakePages.v
theories/PropsFakeServer.v
theories/PropsFakePages.v
theories/ModelCodec.v
theories/SpecCodec.v
theories/ProofsCodec.v
theories/PropsCodec.v
theories/ModelPath.v
theories/SpecPath.v
theories/ProofsPath.v
theories/PropsPath.v
theories/ModelNumber.v
theories/SpecNumber.v
theories/ProofsNumber.v
theories/PropsNumber.v
theories/ModelAccess.v
theories/PropsAccess.v
theories/ModelTmpl.v
theories/SpecTmpl.v
theories/ProofsTmpl.v
theories/PropsTmpl.v
theories/ModelLive.v
theories/PropsLive.v
theories/ModelStream.v
theories/SpecStream.v
theories/ProofsStream.v
theories/PropsStream.v
theories/SpecWalk.v
theories/PropsWalk.v
theories/ModelFollow.v
theories/SpecFollow.v
theories/PropsFollow.v
theories/ModelWhole.v
theories/SpecWhole.v
theories/PropsWhole.v
theories/SpecMirror.v
theories/PropsMirror.v
theories/SpecBody.v
theories/PropsBody.v
theories/SpecJson.v
theories/ProofsJsonGrammar.v
theories/PropsJson.v
theories/SpecSelText.v
theories/ProofsSelGrammar.v
theories/PropsLayout.v
theories/ModelCounters.v
theories/PropsCounters.v
theories/ModelGateway.v
theories/PropsGateway.v
