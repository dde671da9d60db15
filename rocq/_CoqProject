-Q theories Verif
theories/Lang.v
theories/Ind.v
theories/Bytes.v
theories/Interp.v
theories/Shift.v
theories/Pure.v
theories/ProgBase.v
theories/ProgDis.v
theories/Prog.v
theories/Spec.v
theories/Codec.v
theories/Codec2.v
theories/Mono.v
theories/Rep.v
theories/Dec.v
theories/StreamLem.v
theories/SerSound.v
theories/ParSound.v
theories/ParStep.v
theories/ParClass.v
theories/Layouts.v
theories/NewSound.v
theories/Refine.v
theories/Api.v
theories/StreamApi.v
theories/PropStream.v
theories/Padding.v
theories/Classes.v
theories/PropCodec.v
theories/PropScope.v
theories/Inv.v
theories/Anywhere.v
theories/Closed.v
theories/PropFactory.v
theories/PropEffects.v
theories/Bitfield.v
theories/PropBits.v
theories/PropRecord.v
theories/Special.v
theories/PropSize.v
theories/PropHeader.v
theories/PropOffsets.v
theories/Declared.v
theories/PropDeclared.v
theories/CtorRun.v
theories/PropCtor.v
theories/SvRun.v
theories/PropSV.v
theories/SvList.v
theories/TxRun.v
theories/TxPar.v
theories/PropTransmit.v
theories/PropSvList.v
theories/PropNullList.v
theories/PropTxOffsets.v
theories/Assign.v
theories/PropAssign.v
theories/Append.v
theories/PropAppend.v
theories/PropAggregate.v
theories/PropPduOffsets.v
theories/PropPduOffsets2.v
theories/PropAccept.v
theories/PropScope2.v
theories/Real3.v
theories/DeadReckoning.v
theories/RangeCoordinates.v
theories/PropDR.v
theories/PropGeo.v
theories/Conv.v
theories/PropConv.v
theories/PropAtt.v
theories/PropUtm.v
theories/UtmShape.v
theories/UtmDeriv.v
theories/PropTm.v
theories/Float64.v
theories/DeadReckoning64.v
theories/FloatErr.v
theories/PropDR64.v
theories/PropDR64b.v
theories/PropFloat.v
theories/FloatLink.v
theories/PropEnd.v
theories/Range64.v
theories/FloatAbs.v
theories/PropRange64.v
theories/RangeErr.v
theories/RangeRad.v
theories/RangeStep.v
theories/RangeLoop.v
theories/PropLla64.v
theories/GeoStable.v
theories/PropTrip64.v
theories/PropNed64.v
theories/Attitude64.v
theories/AttErr.v
theories/PropAtt64.v
theories/Examples.v
theories/PropExample.v
theories/PropTurn.v
theories/Utm64.v
theories/UtmErr.v
theories/UtmTerms.v
theories/PropUtm64.v
theories/PropEcefUtm.v
theories/Cost.v
theories/CostCheck.v
theories/CostLin.v
theories/PropCost.v
theories/DepthCheck.v
theories/DepthOk.v
theories/CostMono.v
theories/PropDepth.v
theories/Ren.v
theories/PropUsers.v
theories/Threads.v
theories/ThreadRel.v
theories/PropThreads.v
theories/Calm.v
theories/PropShare.v
theories/PropStack.v
theories/PropRoutes.v
theories/PropSeries.v
theories/Rewrite.v
theories/PropRewrite.v
theories/Replace.v
theories/PropReplace.v
theories/Client.v
theories/PropClient.v
theories/PropTransfer.v
theories/PropReply.v
theories/PropWithin.v
theories/PropPae64.v
theories/Demo.v
theories/PropMap.v
theories/Validate.v
