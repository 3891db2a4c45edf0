-Q theories Verif
theories/Base.v
theories/Chrono.v
theories/DateModel.v
theories/Gregorian.v
theories/DateFacts.v
theories/LoopFacts.v
theories/PropsDate.v
theories/PropsRoll.v
theories/PropsPeriod.v
theories/TextModel.v
theories/Value.v
theories/ErrorText.v
theories/DayCountModel.v
theories/RealValue.v
theories/FloatValue.v
theories/FloatFacts.v
theories/PropsDayCount.v
theories/PropsDayCountFloat.v
theories/InterpModel.v
theories/InterpFacts.v
theories/Piecewise.v
theories/Grid.v
theories/PropsLinear.v
theories/PropsLinearFloat.v
theories/PropsHermite.v
theories/PropsCatmullRom.v
theories/TriFacts.v
theories/PropsTri.v
theories/NcFacts.v
theories/PropsNaturalCubic.v
theories/CurveModel.v
theories/PropsCurve.v
theories/BondModel.v
theories/PropsBond.v
theories/EasterTables.v
theories/CalLib.v
theories/Calendars.v
theories/CalCore.v
theories/CalFacts.v
theories/CalSpec.v
theories/PropsCalLib.v
theories/PropsEaster.v
theories/PropsCountries.v
theories/HolidayRules.v
theories/HolidayDates.v
theories/HolidayTables.v
theories/HolidayCheck.v
theories/PropsHolidays.v
theories/YearSweep.v
theories/Gaps.v
theories/PropsGaps.v
theories/PropsShift.v
theories/PropsRisk.v
theories/PropsFloat.v
theories/PropsFloatKnots.v
theories/PropsFloatLinear.v
theories/PropsText.v
theories/PropsCurveFloat.v
theories/PropsValuation.v
theories/PropsDayCountF32.v
theories/PropsStability.v
theories/PropsNcStability.v
theories/PropsForward.v
theories/PropsPayments.v
theories/PropsBondFloat.v
theories/PropsCurveError.v
theories/PropsSplineFloat.v
theories/PropsCurveErrorSpline.v
theories/NcError.v
theories/PropsNcFloat.v
theories/PropsCurveErrorNatural.v
theories/PropsApprox.v
theories/PropsCurveApprox.v
theories/PropsSpread.v
theories/PropsBuckets.v
theories/PropsCurveErrorAny.v
theories/PropsShape.v
theories/PropsEnergy.v
theories/PropsDayCountCompare.v
theories/PropsDayCountAny.v
theories/PropsFade.v
theories/PropsMirror.v
theories/PropsInsert.v
theories/PropsMoreHolidays.v
theories/PropsCompare.v
theories/PropsFlat.v
theories/PropsStrip.v
theories/PropsBounds.v
theories/RepoTests.v
theories/RepoCalendarTests.v
