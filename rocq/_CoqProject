-Q theories Verif
theories/Base.v
theories/BaseFacts.v
theories/Flash.v
theories/FlashFacts.v
theories/FlashCrc.v
theories/FlashSpec.v
theories/FlashProofs.v
theories/FlashFormat.v
theories/FlashExamples.v
theories/PropsFlash.v
theories/Codecs.v
theories/CodecsSpec.v
theories/CodecsFacts.v
theories/CodecsExamples.v
theories/PropsCodecs.v
theories/Upload.v
theories/UploadSpec.v
theories/UploadFacts.v
theories/UploadExamples.v
theories/PropsUpload.v
theories/Baking.v
theories/BakingSpec.v
theories/BakingFacts.v
theories/BakingExamples.v
theories/PropsBaking.v
theories/Operations.v
theories/OperationsSpec.v
theories/OperationsFacts.v
theories/OperationsExamples.v
theories/PropsOperations.v
theories/Oracles.v
theories/Address.v
theories/AddressSpec.v
theories/AddressFacts.v
theories/HashDemo.v
theories/AddressExamples.v
theories/PropsAddress.v
theories/Device.v
theories/DeviceSpec.v
theories/DeviceFacts.v
theories/DeviceProofs.v
theories/DeviceConsensus.v
theories/DeviceHist.v
theories/DeviceSigs.v
theories/DeviceAnswers.v
theories/DeviceReviews.v
theories/DeviceKeys.v
theories/DeviceSlots.v
theories/DeviceCommands.v
theories/DeviceUploads.v
theories/DeviceDemo.v
theories/DeviceCases.v
theories/DeviceExamples.v
theories/Text.v
theories/TextSpec.v
theories/TextFacts.v
theories/Bakers.v
theories/BakersSpec.v
theories/BakersFacts.v
theories/KnownBakers.v
theories/TextExamples.v
theories/Screens.v
theories/ScreensSpec.v
theories/ScreensFacts.v
theories/ScreensViews.v
theories/ScreensPages.v
theories/ScreensDevice.v
theories/ScreensExamples.v
theories/LooksSpec.v
theories/LooksFacts.v
theories/LooksExamples.v
theories/Zui.v
theories/UiDevice.v
theories/UiSpec.v
theories/ZuiFacts.v
theories/ZuiNav.v
theories/ZuiReach.v
theories/ZuiMoves.v
theories/UiFacts.v
theories/UiRun.v
theories/UiCases.v
theories/UiExamples.v
theories/ServiceSpec.v
theories/DeviceContents.v
theories/DeviceLive.v
theories/ServiceExamples.v
theories/DeviceAdmin.v
theories/AdminExamples.v
theories/Client.v
theories/ClientSpec.v
theories/ClientText.v
theories/ClientFacts.v
theories/ClientSign.v
theories/ClientCalls.v
theories/ClientAdmin.v
theories/ClientExamples.v
theories/PropsConsensus.v
theories/PropsDevice.v
theories/PropsText.v
theories/PropsScreens.v
theories/PropsLooks.v
theories/PropsUi.v
theories/PropsService.v
theories/PropsAdmin.v
theories/PropsClient.v
theories/SecretSpec.v
theories/SecretFacts.v
theories/SecretExamples.v
theories/PropsSecret.v
theories/StopSpec.v
theories/StopFacts.v
theories/StopExamples.v
theories/PropsStop.v
theories/AcceptedSpec.v
theories/AcceptedFacts.v
theories/AcceptedExamples.v
theories/PropsAccepted.v
theories/SizeFacts.v
theories/SizeExamples.v
theories/PropsSize.v
theories/InterruptSpec.v
theories/InterruptFacts.v
theories/InterruptExamples.v
theories/PropsInterrupt.v
theories/MemorySpec.v
theories/MemoryFacts.v
theories/MemoryExamples.v
theories/PropsMemory.v
theories/IdealSpec.v
theories/IdealReads.v
theories/IdealFacts.v
theories/IdealExamples.v
theories/PropsIdeal.v
theories/Element.v
theories/ElementSpec.v
theories/ElementFacts.v
theories/ElementExamples.v
theories/PropsElement.v
theories/Catch.v
theories/Loop.v
theories/LoopSpec.v
theories/LoopFacts.v
theories/LoopExamples.v
theories/PropsLoop.v
theories/AppInfo.v
theories/AppInfoSpec.v
theories/AppInfoFacts.v
theories/PropsAppInfo.v
theories/DocSpec.v
theories/DocFacts.v
theories/DocExamples.v
theories/PropsDoc.v
theories/TalkSpec.v
theories/ClientMore.v
theories/ClientMoreExamples.v
theories/PropsTalk.v
theories/DevBuild.v
theories/DevSpec.v
theories/DevFacts.v
theories/DevExamples.v
theories/PropsDev.v
theories/BuildTime.v
theories/BuildSpec.v
theories/BuildFacts.v
theories/BuildExamples.v
theories/PropsBuild.v
theories/Vectors.v
theories/HandSpec.v
theories/HandFacts.v
theories/HandExamples.v
theories/PropsHand.v
theories/Desk.v
theories/DeskSpec.v
theories/DeskFacts.v
theories/DeskSim.v
theories/DeskExamples.v
theories/PropsDesk.v
theories/ReturnedSpec.v
theories/ReturnedFacts.v
theories/ReturnedSession.v
theories/ReturnedHand.v
theories/ReturnedExamples.v
theories/PropsReturned.v
theories/Borrow.v
theories/BorrowSpec.v
theories/BorrowFacts.v
theories/BorrowExamples.v
theories/PropsBorrow.v
theories/Mock.v
theories/MockSpec.v
theories/MockFacts.v
theories/MockExamples.v
theories/PropsMock.v
theories/Zuit.v
theories/ZuitFacts.v
theories/ZuitExamples.v
theories/PropsZuit.v
theories/Fuzz.v
theories/FuzzFacts.v
theories/PropsFuzz.v
theories/Harness.v
theories/HarnessSpec.v
theories/HarnessFacts.v
theories/HarnessExamples.v
theories/PropsHarness.v
theories/Blobs.v
theories/BlobsSpec.v
theories/BlobsFacts.v
theories/BlobsSession.v
theories/BlobsExamples.v
theories/PropsBlobs.v
theories/ArrowsSpec.v
theories/ArrowsFacts.v
theories/Signs.v
theories/SignsFacts.v
theories/SignsExamples.v
theories/PropsSigns.v
theories/Generators.v
theories/GeneratorsSpec.v
theories/GeneratorsFacts.v
theories/GeneratorsExamples.v
theories/PropsGenerators.v
theories/LettersSpec.v
theories/LettersFacts.v
theories/KeyTests.v
theories/KeyTestsFacts.v
theories/KeyTestsExamples.v
theories/PropsLetters.v
theories/DevClient.v
theories/DevClientFacts.v
theories/DevClientSign.v
theories/PropsDevClient.v
theories/Cartesian.v
theories/CartesianFacts.v
theories/PropsCartesian.v
