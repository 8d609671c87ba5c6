-Q theories Verif
theories/Num.v
theories/PyBase.v
theories/Arr.v
theories/ArrFacts.v
theories/NumFacts.v
theories/PyFacts.v
theories/Spec.v
theories/DeltaP.v
theories/DeltaPFacts.v
theories/DeltaPApi.v
theories/PropertiesDeltaP.v
theories/XrFacts.v
theories/Hybrid.v
theories/HybridFacts.v
theories/HybridProps.v
theories/HybridCoord.v
theories/PropertiesHybrid.v
theories/Interp1d.v
theories/Interp1dFacts.v
theories/InterpHyb.v
theories/ChunkFacts.v
theories/InterpHybFacts.v
theories/InterpColumn.v
theories/InterpApi.v
theories/InterpProps.v
theories/ExtrapFacts.v
theories/InterpExtrap.v
theories/InterpFinal.v
theories/PropertiesInterp.v
theories/InterpSigma.v
theories/InterpSigmaFacts.v
theories/InterpMulti.v
theories/PropertiesInterp2.v
theories/InterpMultiFacts.v
theories/InterpGrid.v
theories/ListFacts.v
theories/InterpCyclic.v
theories/PropertiesMultidim.v
theories/Meteo.v
theories/CellFacts.v
theories/SpecMeteo.v
theories/MeteoFacts.v
theories/RelhumFacts.v
theories/MeteoCells.v
theories/MeteoApi.v
theories/RelhumMix.v
theories/RelhumMixFacts.v
theories/MeteoApi2.v
theories/PropertiesMeteo.v
theories/StrFn.v
theories/GcUtil.v
theories/Psi.v
theories/SpecVar.v
theories/GcUtilFacts.v
theories/SpecPsi.v
theories/PsiFacts.v
theories/PsiApi.v
theories/PsiGuards.v
theories/PropertiesPsi.v
theories/Gradient.v
theories/SpecGrad.v
theories/GradSeries.v
theories/GradRadius.v
theories/GradFacts.v
theories/GradArc.v
theories/GradRank3.v
theories/PropertiesGrad.v
theories/PolyZ.v
theories/GradApi.v
theories/Spherical.v
theories/SpecSum.v
theories/SumFacts.v
theories/SpecSph.v
theories/SphFacts.v
theories/SphApi.v
theories/SphMore.v
theories/SphExample.v
theories/PropertiesSph.v
theories/Fourier.v
theories/SpecFourier.v
theories/FourierDft.v
theories/FourierFacts.v
theories/FourierApi.v
theories/FourierMore.v
theories/FourierEnd.v
theories/PropertiesFourier.v
theories/Pearson.v
theories/SpecStats.v
theories/PearsonFacts.v
theories/PearsonApi.v
theories/PearsonMore.v
theories/PropertiesPearson.v
theories/Eof.v
theories/EofFacts.v
theories/PropertiesEof.v
theories/Nmse.v
theories/NmseFacts.v
theories/NmseApi.v
theories/NmseMore.v
theories/PropertiesNmse.v
theories/Calendar.v
theories/CalendarFacts.v
theories/Climat.v
theories/SpecClim.v
theories/ClimFacts.v
theories/ClimApi.v
theories/ClimLong.v
theories/ClimKeys.v
theories/ClimKeysApi.v
theories/ClimSeason.v
theories/ClimM2S.v
theories/ClimAnom.v
theories/ClimMore.v
theories/Deprecated.v
theories/ClimZero.v
theories/ClimDemo.v
theories/PropertiesClimat.v
theories/InterpNearest.v
theories/SpecMulti.v
theories/InterpSigmaShort.v
theories/GradLabels.v
theories/ClimAttrs.v
theories/ClimAttrsFacts.v
theories/PropertiesAttrs.v
theories/EofLabels.v
theories/NumB64.v
theories/SpecB64.v
theories/B64Facts.v
theories/DeltaPGen.v
theories/B64DeltaP.v
theories/B64Hybrid.v
theories/PropertiesB64.v
theories/B64Blend.v
theories/Interp1dGen.v
theories/B64Interp.v
theories/B64Relhum.v
theories/PropertiesB64Meteo.v
theories/PropertiesMix.v
theories/InterpSigmaFull.v
theories/InterpSigmaFullFacts.v
theories/PropertiesSigma.v
theories/DaylightPrec.v
theories/DaylightPrecFacts.v
theories/PropertiesDaylight.v
theories/InterpCoords.v
theories/PropertiesMultidim2.v
theories/SphRank.v
theories/PropertiesSph2.v
theories/HeatOrder.v
theories/PropertiesMeteo2.v
theories/LevelOrder.v
theories/PropertiesLevels.v
theories/GradOrient.v
theories/PropertiesGrad2.v
theories/MultiOrient.v
theories/PropertiesMultidim3.v
theories/RelhumOrder.v
theories/PropertiesMeteo3.v
theories/ColumnLocal.v
theories/MultiLocal.v
theories/PropertiesLocal.v
theories/B64Nmse.v
theories/B64NmseEx.v
theories/B64Cos.v
theories/PropertiesB64Nmse.v
theories/MeteoAttrs.v
theories/PropertiesMeteo4.v
theories/ClimLeap.v
theories/PropertiesClimLeap.v
theories/MultiOutcome.v
theories/PropertiesMultidim4.v
theories/SpecUnits.v
theories/UnitScale.v
theories/PropertiesUnits.v
theories/SpecAffine.v
theories/AffineInterp.v
theories/PropertiesAffine.v
theories/SpecClimUnits.v
theories/ClimAffine.v
theories/PropertiesClimUnits.v
theories/SpecSplit.v
theories/ClimSplit.v
theories/PropertiesSplit.v
theories/MeteoDay.v
theories/PropertiesDay.v
theories/FourierEnergy.v
theories/PropertiesEnergy.v
theories/B64Grad.v
theories/SpecRel.v
theories/PropertiesB64Grad.v
theories/NmseCorr.v
theories/PropertiesNmseCorr.v
theories/SpecSuper.v
theories/Superpose.v
theories/PropertiesSuper.v
theories/DeltaPRank.v
theories/DeltaPRankFacts.v
theories/PropertiesRank.v
theories/GradAccuracy.v
theories/PropertiesGradAcc.v
theories/B64Sigma.v
theories/SpecB64Sigma.v
theories/PropertiesB64Sigma.v
theories/SpecB64Dew.v
theories/B64Dew.v
theories/PropertiesB64Dew.v
theories/PsiColumn.v
theories/PropertiesPsiColumn.v
theories/SphStack.v
theories/PropertiesSphStack.v
theories/SpecCase.v
theories/CaseFacts.v
theories/PropertiesCase.v
theories/SphInf.v
theories/PropertiesSphInf.v
theories/SpecClimSuper.v
theories/ClimSuper.v
theories/ClimSuperApi.v
theories/PropertiesClimSuper.v
theories/SpecClimIdem.v
theories/ClimIdem.v
theories/PropertiesClimIdem.v
theories/SpecClimB64.v
theories/ClimRel.v
theories/B64Clim.v
theories/PropertiesClimB64.v
theories/SpecClimTwo.v
theories/ClimSteps.v
theories/PropertiesClimTwo.v
theories/ClimOrder.v
theories/SpecClimOrder.v
theories/ClimOrderFacts.v
theories/PropertiesClimOrder.v
theories/SpecFourierErr.v
theories/FourierErr.v
theories/PropertiesFourierErr.v
theories/SpecFourierNan.v
theories/FourierNan.v
theories/PropertiesFourierNan.v
theories/GradRank1.v
theories/PropertiesGradRank.v
theories/SpecClimShift.v
theories/ClimShift.v
theories/PropertiesClimShift.v
theories/SpecClimPair.v
theories/ClimPair.v
theories/ClimPairApi.v
theories/PropertiesClimPair.v
theories/SpecB64Met.v
theories/B64Met.v
theories/PropertiesB64Met.v
theories/B64Heat.v
theories/PropertiesB64Heat.v
theories/SpecB64Day.v
theories/B64Day.v
theories/PropertiesB64Day.v
