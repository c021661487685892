-Q theories Verif
theories/ModelBase.v
theories/ModelReports.v
theories/ModelSerial.v
theories/ModelCommands.v
theories/ModelNodes.v
theories/ModelList.v
theories/SpecFrame.v
theories/SpecDecode.v
theories/SpecReports.v
theories/ProofBase.v
theories/ProofSerial.v
theories/ProofMessage.v
theories/SpecMessage.v
theories/ProofContent.v
theories/ProofReports.v
theories/SpecFloat64.v
theories/ProofFloat.v
theories/ProofSensor.v
theories/SpecCommands.v
theories/SpecNodes.v
theories/ProofCommands.v
theories/PropFraming.v
theories/PropReports.v
theories/PropCommands.v
theories/ModelConnection.v
theories/SpecConnection.v
theories/ProofConnection.v
theories/ProofLink.v
theories/ProofWitness.v
theories/PropConnection.v
theories/ProofReader.v
theories/PropReader.v
theories/ProofNodes.v
theories/PropNodes.v
theories/ProofUnknown.v
theories/PropUnknown.v
theories/DataDevices.v
theories/DataMandatory.v
theories/DataNames.v
theories/ModelDatabase.v
theories/SpecDatabase.v
theories/ProofDatabase.v
theories/PropDatabase.v
theories/ModelIdentify.v
theories/SpecIdentify.v
theories/ProofIdentify.v
theories/PropIdentify.v
theories/ModelController.v
theories/SpecController.v
theories/ProofController.v
theories/PropController.v
theories/ModelRecorder.v
theories/SpecRecorder.v
theories/ProofRecorder.v
theories/PropRecorder.v
theories/ModelJson.v
theories/SpecJson.v
theories/ProofJson.v
theories/ModelConfig.v
theories/SpecConfig.v
theories/ProofConfig.v
theories/ProofFormat.v
theories/ProofStorable.v
theories/PropConfig.v
theories/ModelAccess.v
theories/SpecAccess.v
theories/ProofAccess.v
theories/PropAccess.v
theories/ModelPort.v
theories/SpecPort.v
theories/ProofPort.v
theories/PropPort.v
theories/DataFiles.v
theories/ModelGenerator.v
theories/SpecGenerator.v
theories/ProofGenerator.v
theories/PropGenerator.v
theories/DataParameters.v
theories/ModelParameters.v
theories/SpecParameters.v
theories/ProofParameters.v
theories/PropParameters.v
theories/ModelSystem.v
theories/SpecSystem.v
theories/ProofSystem.v
theories/ProofDiscovery.v
theories/ProofDelivery.v
theories/PropSystem.v
theories/SpecPassage.v
theories/ProofPassage.v
theories/ProofProgress.v
theories/PropPassage.v
theories/ModelExample.v
theories/SpecExample.v
theories/ProofExample.v
theories/PropExample.v
theories/ModelWhole.v
theories/SpecWhole.v
theories/ProofWhole.v
theories/ProofWholeWait.v
theories/ProofWholeRuns.v
theories/PropWhole.v
theories/ProofReload.v
theories/ModelLife.v
theories/SpecLife.v
theories/ProofSane.v
theories/ProofLife.v
theories/ProofLifeRuns.v
theories/PropLife.v
theories/ProofAnswer.v
theories/ProofAnswerRuns.v
theories/PropAnswer.v
theories/SpecComplete.v
theories/ProofComplete.v
theories/ProofResume.v
theories/ProofCompleteRuns.v
theories/PropComplete.v
theories/ProofNetwork.v
theories/ProofStart.v
theories/ProofNetworkRuns.v
theories/PropNetwork.v
theories/SpecKnown.v
theories/ProofKnown.v
theories/ProofKnownRuns.v
theories/PropKnown.v
theories/SpecSilent.v
theories/ProofSilent.v
theories/ProofSilentRuns.v
theories/PropSilent.v
theories/ModelText.v
theories/SpecText.v
theories/ProofText.v
theories/ProofSensorText.v
theories/PropText.v
theories/SpecAnnounce.v
theories/ProofAnnounce.v
theories/PropAnnounce.v
