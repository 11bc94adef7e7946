-Q theories Verif
theories/Base.v
theories/Notations.v
theories/Winnow.v
theories/Parser.v
theories/Seitz.v
theories/F64.v
theories/Jones.v
theories/Rotations.v
theories/Tables.v
theories/Generate.v
theories/Positions.v
theories/Display.v
theories/Order.v
theories/Lookup.v
theories/Machine.v
theories/Machine2.v
theories/Spec.v
theories/Algebra.v
theories/PropSeitz.v
theories/PropSymbols.v
theories/GenFacts.v
theories/SpecHall.v
theories/PropGenerate.v
theories/GroupCheck.v
theories/PropFullSets.v
theories/PropShift.v
theories/SpecTables.v
theories/PropTables.v
theories/RowData.v
theories/PropTableGroups.v
theories/SpecType.v
theories/TypeFacts.v
theories/TypeCount.v
theories/TypeData.v
theories/PropTypes.v
theories/SpecText.v
theories/PropParser.v
theories/PropRoundTrip.v
theories/PropOrder.v
theories/Restriction.v
theories/F64Facts.v
theories/F64Div.v
theories/F64Err.v
theories/SpecRotation.v
theories/PropRotation.v
theories/PropArith.v
theories/SpecXyz.v
theories/PropJones.v
theories/SpecInverse.v
theories/PropInverse.v
theories/PropInverse2.v
theories/SpecFloat64.v
theories/PropFloat.v
theories/PropInverseErr.v
theories/PropInverse3.v
theories/PropInverse4.v
theories/PropListing.v
theories/SpecDisplay.v
theories/PropDisplay.v
theories/SpecCompat.v
theories/PropTermination.v
theories/SpecMachine.v
theories/MachineFacts.v
theories/PropMachine.v
theories/PropMachine2.v
theories/SpecRepeat.v
theories/PropRepeat.v
theories/SpecCanon.v
theories/PropCanon.v
theories/SpecOutcome.v
theories/PropOutcome.v
theories/SpecMetric.v
theories/PropMetric.v
theories/SpecOrbit.v
theories/PropOrbit.v
theories/PropSubgroup.v
theories/PropPeriod.v
theories/PropFaithful.v
theories/Subgroups.v
theories/PropClass.v
theories/PropListOrder.v
theories/PropComplete.v
theories/PropScrew.v
theories/PropAxis.v
theories/PropNormal.v
theories/SpecHash.v
theories/PropHash.v
theories/PropWork.v
theories/SpecSite.v
theories/PropSite.v
theories/SpecFamily.v
theories/FamilyData.v
theories/PropFamily.v
theories/SpecRelabel.v
theories/PropRelabel.v
theories/PropMove.v
theories/NormF64.v
theories/PropNorm.v
theories/Messages.v
theories/PropMessages.v
theories/DebugText.v
theories/SpecDebug.v
theories/PropDebug.v
theories/PropTable.v
theories/SpecReflection.v
theories/PropReflection.v
theories/SpecPrinted.v
theories/PropPrinted.v
theories/Cocycle.v
theories/LatticeBasis.v
theories/LatticeData.v
theories/ClassData.v
theories/PropOneType.v
theories/SpecKind.v
theories/PropKind.v
theories/SpecLatticeClass.v
theories/PropLatticeClass.v
theories/Values.v
theories/PropValues.v
theories/Machine3.v
theories/PropMachine3.v
theories/SpecHM.v
theories/PropHM.v
theories/PropHM2.v
theories/SpecCell.v
theories/PropCell.v
theories/SpecBravais.v
theories/PropBravais.v
theories/SpecPatterson.v
theories/PropPatterson.v
theories/PropRefine.v
theories/F64Mod.v
theories/PropFloatMod.v
theories/SpecLaue.v
theories/PropLaue.v
theories/SpecEdit.v
theories/PropEdit.v
theories/SpecOrigin.v
theories/PropOrigin.v
theories/PropCases.v
theories/SpecLabel.v
theories/PropLabel.v
theories/PropFound.v
theories/PropDefault.v
theories/PrettyText.v
theories/SpecPretty.v
theories/PropPretty.v
theories/SpecName.v
theories/PropName.v
