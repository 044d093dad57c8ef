-Q theories Verif
theories/Base.v
theories/FloatOps.v
theories/Register.v
theories/Bus.v
theories/Camera.v
theories/Cam640.v
theories/Cam641.v
theories/Hamming.v
theories/Ee640.v
theories/Ee641.v
theories/Calc.v
theories/Driver.v
theories/Mock.v
theories/B32.v
theories/BitFacts.v
theories/B32Facts.v
theories/SpecRegister.v
theories/RegisterFacts.v
theories/FrameRateFacts.v
theories/Time.v
theories/P_Register.v
theories/SpecHamming.v
theories/HammingFacts.v
theories/P_Hamming.v
theories/SpecCamera.v
theories/CameraFacts.v
theories/P_Camera.v
theories/SpecDriver.v
theories/CalcFacts.v
theories/DriverFacts.v
theories/StepFacts.v
theories/Demo.v
theories/P_Bus.v
theories/SpecImage.v
theories/SpecCall.v
theories/ImageFacts.v
theories/P_Image.v
theories/P_Frames.v
theories/P_ImageDemo.v
theories/SeenFacts.v
theories/P_Seen.v
theories/SpecMock.v
theories/TraceFacts.v
theories/MockFacts.v
theories/ReportFacts.v
theories/P_Mock.v
theories/P_Reference.v
theories/P_MockSelf.v
theories/P_MockLog.v
theories/P_Calc.v
theories/P_CalcReal.v
theories/SpecEeprom.v
theories/ParseFacts.v
theories/FieldFacts.v
theories/SpecRange.v
theories/RangeFacts.v
theories/Spec640.v
theories/Ee640Facts.v
theories/Ee640Closed.v
theories/Ee640Local.v
theories/Dumps.v
theories/P_Ee640.v
theories/P_Ee640Real.v
theories/Spec641.v
theories/Ee641Facts.v
theories/Ee641Closed.v
theories/Ee641Words.v
theories/P_Ee641.v
theories/P_Ee641Real.v
theories/P_Usable.v
theories/P_Masks.v
theories/RealOps.v
theories/SpecPhysics.v
theories/RealFacts.v
theories/P_Physics.v
theories/SpecFinite.v
theories/BoundFacts.v
theories/FiniteFacts.v
theories/P_Finite.v
theories/SpecIndep.v
theories/P_Indep.v
theories/Public.v
theories/P_Public.v
theories/AccuracyFacts.v
theories/SpecAccuracy.v
theories/P_Accuracy.v
theories/P_PixelAccuracy.v
theories/SpecTemperature.v
theories/ObjectFacts.v
theories/P_Temperature.v
theories/P_EndToEnd.v
theories/Examples.v
theories/P_Timing.v
theories/P_Frequency.v
theories/P_Terminal.v
theories/SpecReplay.v
theories/StrategyFacts.v
theories/P_Replay.v
theories/SpecRetry.v
theories/RetryFacts.v
theories/P_Retry.v
theories/SpecHold.v
theories/HoldFacts.v
theories/P_Hold.v
theories/SpecTraffic.v
theories/P_Traffic.v
theories/SpecWear.v
theories/WearFacts.v
theories/PixelFacts.v
theories/PixelWords.v
theories/P_Wear.v
theories/SpecStream.v
theories/StreamFacts.v
theories/P_Stream.v
theories/SyncFacts.v
theories/P_Sync.v
theories/SpecStale.v
theories/P_Stale.v
theories/Program.v
theories/P_Program.v
theories/P_Recipe.v
theories/Text.v
theories/SpecText.v
theories/P_Text.v
theories/SpecPort.v
theories/PortFacts.v
theories/P_Port.v
theories/SpecShare.v
theories/P_Share.v
theories/SpecOrder.v
theories/P_Order.v
theories/P_Emissivity.v
theories/SpecNan.v
theories/P_Nan.v
theories/P_Calls.v
theories/P_Ambient.v
theories/P_Numbers.v
theories/SpecSpeed.v
theories/P_Speed.v
theories/SpecPlan.v
theories/P_Plan.v
theories/SpecCustom.v
theories/P_Custom.v
theories/LowLevel.v
theories/P_Low.v
theories/SpecCrash.v
theories/CrashFacts.v
theories/P_Crash.v
theories/P_Noise.v
theories/P_Steady.v
theories/Powers.v
theories/P_Powers.v
theories/P_Hex.v
theories/P_Fine.v
theories/P_Builds.v
theories/P_Range.v
theories/P_Warm.v
theories/P_Range641.v
theories/ExampleData.v
theories/Conformance.v
