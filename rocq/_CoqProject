-Q theories Verif
theories/Base.v
theories/ModelCodec.v
theories/HMap.v
theories/ModelMessages.v
theories/ModelObject.v
theories/DbTable.v
theories/MakerTable.v
theories/SpecWire.v
theories/ProofsCodec.v
theories/ProofsCodec2.v
theories/PropertiesCodec.v
theories/ProofsObject.v
theories/SpecObject.v
theories/ProofsObject2.v
theories/ProofsObject3.v
theories/PropertiesObject.v
theories/PropertiesDb.v
theories/ModelTransport.v
theories/ModelNode.v
theories/SpecNode.v
theories/ProofsNode.v
theories/ProofsNode2.v
theories/ProofsNode3.v
theories/ProofsNode4.v
theories/ExamplesNode.v
theories/PropertiesNode.v
theories/PropertiesTrans.v
theories/ProofsDevice.v
theories/PropertiesProfile.v
theories/ModelController.v
theories/ModelHost.v
theories/PropertiesTransport.v
theories/ProofsExchange.v
theories/ProofsController.v
theories/ProofsHistory.v
theories/PropertiesController.v
theories/SpecHost.v
theories/ProofsHost.v
theories/ProofsHost2.v
theories/PropertiesHost.v
theories/ModelLocks.v
theories/SpecLocks.v
theories/ProofsLocks.v
theories/ProofsLocks2.v
theories/PropertiesLocks.v
theories/SpecRemote.v
theories/PropertiesRemote.v
theories/ModelDevice.v
theories/SpecDevice.v
theories/PropertiesDevice.v
theories/PropertiesDevice2.v
theories/PropertiesDevice3.v
theories/ProofsBuild.v
theories/PropertiesBuild.v
theories/PropertiesFrames.v
theories/PropertiesMaps.v
theories/ModelNetwork.v
theories/PropertiesNetwork.v
theories/RepoTests.v
theories/ModelTools.v
theories/PropertiesTools.v
theories/PropertiesRequests.v
theories/PropertiesDiscovery.v
theories/ModelText.v
theories/PropertiesText.v
theories/ModelOwner.v
theories/PropertiesOwner.v
theories/PropertiesInterfaces.v
theories/SpecOrder.v
theories/ProofsOrder.v
theories/PropertiesOrder.v
theories/ModelCalls.v
theories/PropertiesCalls.v
theories/SpecTiers.v
theories/ProofsTiers.v
theories/PropertiesTiers.v
theories/PropertiesPosts.v
theories/ModelThreads.v
theories/SpecThreads.v
theories/ProofsThreads.v
theories/ProofsThreads2.v
theories/PropertiesThreads.v
theories/ProofsThreads3.v
theories/PropertiesThreads2.v
theories/ModelEq.v
theories/PropertiesEq.v
theories/SpecProgress.v
theories/ProofsThreads4.v
theories/ProofsThreads5.v
theories/PropertiesThreads3.v
theories/ProofsLetters.v
theories/SpecWait.v
theories/ProofsThreads6.v
theories/PropertiesThreads4.v
theories/SpecFound.v
theories/ProofsFound.v
theories/PropertiesFound.v
theories/ModelClients.v
theories/SpecClients.v
theories/ProofsClients.v
theories/ProofsClients2.v
theories/ProofsClients3.v
theories/ProofsClients4.v
theories/PropertiesClients.v
theories/SpecShared.v
theories/ProofsShared.v
theories/ProofsShared2.v
theories/ProofsShared3.v
theories/PropertiesShared.v
theories/ProofsLines.v
theories/SpecMesh.v
theories/ProofsMesh.v
theories/PropertiesMesh.v
theories/ProofsShared4.v
theories/ProofsMesh2.v
theories/PropertiesMesh2.v
theories/PropertiesDiscovery2.v
theories/SpecListed.v
theories/ProofsListed.v
theories/PropertiesListed.v
theories/ProofsListed2.v
theories/PropertiesListed2.v
theories/ProofsListed3.v
theories/PropertiesListed3.v
theories/SpecWhole.v
theories/PropertiesWhole.v
theories/PropertiesRequired.v
theories/ModelAddress.v
theories/PropertiesAddress.v
theories/ModelDatabase.v
theories/PropertiesUserDb.v
theories/PropertiesAnnounce.v
theories/PropertiesPorts.v
theories/PropertiesGrowth.v
theories/PropertiesAmplify.v
theories/ModelVariants.v
theories/PropertiesIdentity.v
theories/ModelDocs.v
theories/PropertiesDocs.v
theories/ModelTime.v
theories/PropertiesTime.v
theories/PropertiesDatagrams.v
theories/PropertiesHeard.v
theories/PropertiesSender.v
theories/PropertiesApart.v
theories/PropertiesPeers.v
theories/PropertiesSource.v
theories/PropertiesRefused.v
theories/PropertiesItself.v
theories/PropertiesAdding.v
theories/PropertiesSearch.v
theories/PropertiesShown.v
theories/PropertiesAgree.v
theories/PropertiesInstances.v
theories/PropertiesConfirm.v
theories/PropertiesSizes.v
theories/PropertiesParts.v
theories/PropertiesLossy.v
theories/PropertiesNone.v
