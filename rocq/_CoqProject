-Q theories Verif
theories/Arith.v
theories/History.v
theories/SpecStats.v
theories/StatsLemmas.v
theories/Cumulative.v
theories/HistoryLemmas.v
theories/ExactRuns.v
theories/CumulativeProofs.v
theories/CumulativeStats.v
theories/ClaimsCumulative.v
theories/PropertiesCumulative.v
theories/Buffer.v
theories/Window.v
theories/WindowProofs.v
theories/WindowRuns.v
theories/WindowStats.v
theories/ClaimsWindow.v
theories/PropertiesWindow.v
theories/Interim.v
theories/SpecBlocks.v
theories/BlockLemmas.v
theories/InterimRuns.v
theories/InterimStats.v
theories/ClaimsInterim.v
theories/PropertiesInterim.v
theories/Decay.v
theories/SpecDecay.v
theories/DecayRuns.v
theories/DecayProofs.v
theories/ClaimsDecay.v
theories/PropertiesDecay.v
theories/Psquare.v
theories/SpecPsquare.v
theories/SpecOrder.v
theories/PsquareLemmas.v
theories/Orders.v
theories/PsquareGeneric.v
theories/PsquareExact.v
theories/PsquareStats.v
theories/PsquareRuns.v
theories/SpecParameters.v
theories/PsquareRestore.v
theories/ClaimsPsquare.v
theories/PropertiesPsquare.v
theories/InterimPsquare.v
theories/SpecCopies.v
theories/InterimPsquareProofs.v
theories/ClaimsInterimPsquare.v
theories/PropertiesInterimPsquare.v
theories/Impulse.v
theories/SpecImpulse.v
theories/ImpulseRuns.v
theories/ImpulseProofs.v
theories/ClaimsImpulse.v
theories/PropertiesImpulse.v
theories/CircularSpan.v
theories/SpecDeque.v
theories/CircularSpanProofs.v
theories/ClaimsCircularSpan.v
theories/PropertiesCircularSpan.v
theories/Reservoir.v
theories/SpecSampling.v
theories/ReservoirProofs.v
theories/ClaimsReservoir.v
theories/PropertiesReservoir.v
theories/PushIterator.v
theories/SpecPushAll.v
theories/PushIteratorProofs.v
theories/CloseTo.v
theories/Binary64.v
theories/CloseToProofs.v
theories/ClaimsUtility.v
theories/PropertiesUtility.v
theories/Rounded.v
theories/RoundedProofs.v
theories/Binary64Cumulative.v
theories/ConstantProofs.v
theories/ClaimsRounded.v
theories/PropertiesRounded.v
theories/NaNProofs.v
theories/ClaimsNaN.v
theories/PropertiesNaN.v
theories/CInt.v
theories/IntMoments.v
theories/SpecInt.v
theories/IntProofs.v
theories/IntProofs2.v
theories/ClaimsInteger.v
theories/PropertiesInteger.v
theories/Conformance.v
theories/ConformanceCumulative.v
theories/ConformanceWindow.v
theories/ConformanceInterim.v
theories/ConformanceDecay.v
theories/ConformanceImpulse.v
theories/ConformancePsquare.v
theories/ConformanceInterimPsquare.v
theories/ConformanceReservoir.v
theories/Approx.v
theories/ApproxInstances.v
theories/AccuracyProofs.v
theories/AccuracyFilters.v
theories/AccuracyVariance.v
theories/AccuracyWindow.v
theories/ClaimsAccuracy.v
theories/PropertiesAccuracy.v
theories/IntExact.v
theories/CorrectRounding.v
theories/PsquareFloat.v
theories/PsquareOrdered.v
theories/PsquareFew.v
theories/PsquareAccuracy.v
theories/ClaimsPsquareFloat.v
theories/PropertiesPsquareFloat.v
theories/Deprecated.v
theories/DecaySensitivity.v
theories/ClaimsDeprecated.v
theories/PropertiesDeprecated.v
theories/SpecScaling.v
theories/Scaling.v
theories/ScalingInst.v
theories/ClaimsScaling.v
theories/PropertiesScaling.v
theories/LightweightTest.v
theories/SpecReport.v
theories/ClaimsTesting.v
theories/PropertiesTesting.v
theories/ClaimsAgreement.v
theories/PropertiesAgreement.v
theories/IntWindowExact.v
theories/ClaimsFew.v
theories/PropertiesFew.v
theories/SpecOrigin.v
theories/Origin.v
theories/OriginPsquare.v
theories/ClaimsOrigin.v
theories/PropertiesOrigin.v
theories/ExampleRegression.v
theories/SpecExample.v
theories/ExampleProofs.v
theories/ClaimsExample.v
theories/PropertiesExample.v
theories/SpecMonotone.v
theories/Monotone.v
theories/MonotoneLast.v
theories/ClaimsMonotone.v
theories/PropertiesMonotone.v
theories/IntInfinite.v
theories/SpecIntInfinite.v
theories/IntInfiniteProofs.v
theories/ClaimsIntInfinite.v
theories/PropertiesIntInfinite.v
theories/AccuracyInterim.v
theories/ClaimsAccuracyInterim.v
theories/PropertiesAccuracyInterim.v
theories/ClaimsNearly.v
theories/PropertiesNearly.v
theories/SignProofs.v
theories/ClaimsSign.v
theories/PropertiesSign.v
theories/Forgetting.v
theories/ClaimsForgetting.v
theories/PropertiesForgetting.v
theories/SpecError.v
theories/AccuracyRegression.v
theories/ClaimsRegression.v
theories/PropertiesRegression.v
theories/AccuracyHigher.v
theories/ClaimsHigher.v
theories/PropertiesHigher.v
theories/AccuracyInterimHigher.v
theories/ClaimsHigherInterim.v
theories/PropertiesHigherInterim.v
theories/SpecNonFinite.v
theories/NonFiniteProofs.v
theories/ClaimsNonFinite.v
theories/PropertiesNonFinite.v
theories/PsquareParameters.v
theories/ClaimsParameters.v
theories/PropertiesParameters.v
theories/AccuracyComoment.v
theories/ClaimsWindowPairs.v
theories/PropertiesWindowPairs.v
theories/SpecInequality.v
theories/InequalityProofs.v
theories/ClaimsInequality.v
theories/PropertiesInequality.v
theories/ClaimsInterimQuantile.v
theories/PropertiesInterimQuantile.v
theories/AccuracyTrend.v
theories/ClaimsFormats.v
theories/ClaimsTrend.v
theories/PropertiesFormats.v
theories/PropertiesTrend.v
theories/SpecExpectation.v
theories/ExpectationProofs.v
theories/ClaimsUnbiased.v
theories/PropertiesUnbiased.v
theories/SpecFrequency.v
theories/FrequencyProofs.v
theories/ClaimsFrequency.v
theories/PropertiesFrequency.v
theories/SpecLine.v
theories/InterimWindow.v
theories/ClaimsApproximation.v
theories/PropertiesApproximation.v
theories/SpecSensitivity.v
theories/SensitivityProofs.v
theories/ClaimsSensitivity.v
theories/PropertiesSensitivity.v
theories/ClaimsQuantileSafety.v
theories/PropertiesQuantileSafety.v
theories/SpecNoise.v
theories/NoiseProofs.v
theories/ClaimsNoise.v
theories/PropertiesNoise.v
theories/ClaimsBias.v
theories/PropertiesBias.v
theories/ClaimsLag.v
theories/PropertiesLag.v
theories/AccuracyDecayHigher.v
theories/ClaimsDecayHigher.v
theories/PropertiesDecayHigher.v
theories/SpecRatio.v
theories/PsquareTypes.v
theories/ClaimsPsquareTypes.v
theories/PropertiesPsquareTypes.v
theories/Ieee.v
theories/IeeeProofs.v
theories/StallProofs.v
theories/ClaimsStall.v
theories/PropertiesStall.v
theories/PsquareStall.v
theories/ClaimsPsquareStall.v
theories/PropertiesPsquareStall.v
theories/ClaimsRestore.v
theories/PropertiesRestore.v
theories/PsquareTrack.v
theories/PsquareTrackRounded.v
theories/PsquareTrackInst.v
theories/PsquareTrackMedian.v
theories/ClaimsTrack.v
theories/PropertiesTrack.v
theories/SpecSpread.v
theories/PsquareSpread.v
theories/ClaimsSpread.v
theories/PropertiesSpread.v
theories/PsquareOutlier.v
theories/ClaimsOutlier.v
theories/PropertiesOutlier.v
theories/ClaimsPooling.v
theories/PropertiesPooling.v
theories/ClaimsFormatsMore.v
theories/PropertiesFormatsMore.v
theories/Mixed.v
theories/MixedProofs.v
theories/ClaimsMixed.v
theories/PropertiesMixed.v
theories/ClaimsSeries.v
theories/PropertiesSeries.v
theories/ClaimsEquivalent.v
theories/PropertiesEquivalent.v
theories/ClaimsFloat.v
theories/PropertiesFloat.v
theories/ClaimsFormatsCorrelation.v
theories/PropertiesFormatsCorrelation.v
theories/IeeeSign.v
theories/IeeeDecaySign.v
theories/IeeeInterimSign.v
theories/ClaimsFormatsSign.v
theories/PropertiesFormatsSign.v
theories/ClaimsFormatsInterim.v
theories/PropertiesFormatsInterim.v
theories/Contracted.v
theories/ContractedProofs.v
theories/ClaimsContracted.v
theories/PropertiesContracted.v
theories/ClaimsFloatDecay.v
theories/PropertiesFloatDecay.v
theories/ClaimsFormatsInterimQuantile.v
theories/PropertiesFormatsInterimQuantile.v
theories/ContractedPsquare.v
theories/ContractedStep.v
theories/ContractedPsquareRuns.v
theories/ContractedPsquareProofs.v
theories/ClaimsContractedPsquare.v
theories/PropertiesContractedPsquare.v
theories/IeeeFused.v
theories/IeeeFusedProofs.v
theories/ClaimsContractedFormats.v
theories/PropertiesContractedFormats.v
theories/IeeeDeferred.v
theories/ClaimsContractedAccuracy.v
theories/PropertiesContractedAccuracy.v
theories/ContractedWindow.v
theories/ContractedWindowProofs.v
theories/ClaimsContractedWindow.v
theories/PropertiesContractedWindow.v
theories/ContractedRegression.v
theories/ClaimsContractedRegression.v
theories/PropertiesContractedRegression.v
theories/ClaimsFormatsRobust.v
theories/PropertiesFormatsRobust.v
theories/ContractedInterim.v
theories/ContractedInterimProofs.v
theories/ClaimsContractedInterim.v
theories/PropertiesContractedInterim.v
theories/ContractedHigher.v
theories/ContractedHigherProofs.v
theories/ClaimsContractedHigher.v
theories/PropertiesContractedHigher.v
theories/ContractedDecayHigher.v
theories/ContractedDecayHigherProofs.v
theories/ClaimsContractedDecayHigher.v
theories/PropertiesContractedDecayHigher.v
