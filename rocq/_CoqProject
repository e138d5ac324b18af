-Q theories Verif
theories/SacModel.v
theories/SacDrawProofs.v
theories/WhileLib.v
theories/SacRansacProofs.v
theories/FloatLib.v
theories/SacRansacProofs2.v
theories/SacLmedsProofs.v
theories/SacUniformProofs.v
theories/SacReproProofs.v
theories/SacSpec.v
theories/SacProps.v
theories/SacStopProofs.v
theories/SacStopProps.v
theories/MultiModel.v
theories/MultiSpec.v
theories/MultiProofs.v
theories/MultiOneProofs.v
theories/MultiSizesProofs.v
theories/MultiProps.v
theories/AdapterModel.v
theories/AdapterProps.v
theories/Lin.v
theories/RotModel.v
theories/RotProps.v
theories/Spectral.v
theories/ArunModel.v
theories/ArunProps.v
theories/GeoModel.v
theories/GeoProps.v
theories/SturmModel.v
theories/SturmProofs.v
theories/SturmBoundProofs.v
theories/SturmPolishProofs.v
theories/SturmProps.v
theories/Cplx.v
theories/RootsModel.v
theories/RootsProps.v
theories/GaussModel.v
theories/GaussProps.v
theories/GenLin.v
theories/GenSpectral.v
theories/TriModel.v
theories/TriProps.v
theories/EpiModel.v
theories/EpiProps.v
theories/EpiExamples.v
theories/EigSums.v
theories/EigGen.v
theories/EigModel.v
theories/EigAlg.v
theories/EigProps.v
theories/EigExamples.v
theories/EigEV.v
theories/EigJacModel.v
theories/EigJac.v
theories/GeSums.v
theories/GeGen.v
theories/GeAlg.v
theories/GeModel.v
theories/GeProps.v
theories/GeOut.v
theories/GeEV.v
theories/DescentModel.v
theories/DescentProps.v
theories/UpnpModel.v
theories/UpnpProps.v
theories/UpnpProps2.v
theories/UpnpProps3.v
theories/UpnpExamples.v
theories/P3pModel.v
theories/P3pProps.v
theories/P3pTop.v
theories/P3pExamples.v
theories/GaoModel.v
theories/GaoProps.v
theories/GaoExamples.v
theories/GbModel.v
theories/GbProps.v
theories/GpnpData.v
theories/GpnpInit.v
theories/GpnpModel.v
theories/GpnpGb.v
theories/GbMod.v
theories/GpnpExData.v
theories/GpnpExamples.v
theories/GpnpCoincident.v
theories/GpnpProps.v
theories/CEig.v
theories/FiveptGen.v
theories/FiveptModel.v
theories/FiveptRows.v
theories/FiveptProps.v
theories/FiveptExData.v
theories/FiveptExamples.v
theories/QrModel.v
theories/QrProps.v
theories/EpnpModel.v
theories/EpnpProps.v
theories/NlModel.v
theories/NlProps.v
theories/Gp3pData.v
theories/Gp3pInit.v
theories/Gp3pModel.v
theories/Gp3pProps.v
theories/MacModel.v
theories/MacProps.v
theories/UpnpGen.v
theories/UpnpActModel.v
theories/UpnpActGrad.v
theories/UpnpActProps.v
theories/ModElim.v
theories/GjSolve.v
theories/UpnpActData.v
theories/UpnpActEx1.v
theories/UpnpActEx2.v
theories/UpnpActEx3.v
theories/UpnpActEx4.v
theories/SeventeenModel.v
theories/SeventeenProps.v
theories/SeventeenExamples.v
theories/SixptGen.v
theories/SixptModel.v
theories/LinSolve.v
theories/SixptRow2.v
theories/SixptDet.v
theories/SixptGeo.v
theories/SixptMeet.v
theories/Mac3.v
theories/SixptProps.v
theories/SixptDegen.v
theories/SixptData.v
theories/SixptEx1.v
theories/SixptEx2.v
theories/KneipOps.v
theories/KneipData.v
theories/KneipModel.v
theories/KneipForms.v
theories/KneipRow.v
theories/KneipGb.v
theories/KneipChk.v
theories/KneipCub.v
theories/KneipBas.v
theories/KneipFin.v
theories/KneipProps.v
theories/KneipZrow.v
theories/KneipEx1.v
theories/KneipEx2.v
theories/EigSacModel.v
theories/EigSacProps.v
theories/GbSeg.v
theories/Gp3pRows.v
theories/Gp3pTie.v
theories/Gp3pLow.v
theories/Gp3pElim.v
theories/PyModel.v
theories/PySpec.v
theories/PyProps.v
theories/EpnpQuatModel.v
theories/EpnpQuatProps.v
theories/MexModel.v
theories/MexSpec.v
theories/MexProps.v
theories/Py2Model.v
theories/Py2Props.v
theories/UpnpCand.v
theories/Py3Model.v
theories/Py3Props.v
theories/Py3Kneip.v
theories/Py4Model.v
theories/Py4Props.v
theories/Py5Model.v
theories/Py5Props.v
theories/Py6Model.v
theories/Py6Props.v
theories/Assumptions.v
