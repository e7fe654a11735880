-Q theories Verif
theories/Base.v
theories/BaseLemmas.v
theories/H2Model.v
theories/H2Machine.v
theories/H2Spec.v
theories/H2Elements.v
theories/H2Sectors.v
theories/H2Access.v
theories/H2RoundBin.v
theories/H2RoundTxt.v
theories/H2Extra.v
theories/H2Extra2.v
theories/ExEnv.v
theories/H2Extra3.v
theories/H2Final.v
theories/ExH2.v
theories/H2Props.v
theories/MapModel.v
theories/MapSpec.v
theories/MapProof.v
theories/MapProof2.v
theories/MapFinal.v
theories/MapProps.v
theories/RMat.v
theories/XformModel.v
theories/XformSpec.v
theories/XformProof.v
theories/XformFinal.v
theories/ExXform.v
theories/XformProps.v
theories/SepModel.v
theories/SepSpec.v
theories/SepProof.v
theories/SepFinal.v
theories/ExSep.v
theories/SepProps.v
theories/OscModel.v
theories/OscSpec.v
theories/OscProof.v
theories/OscFinal.v
theories/OscProps.v
theories/BlockModel.v
theories/BlockSpec.v
theories/BlockProof.v
theories/BlockFinal.v
theories/BlockProps.v
theories/ObioModel.v
theories/ObioSpec.v
theories/ObioProof.v
theories/ObioFinal.v
theories/ObioProps.v
theories/MoshModel.v
theories/MoshProof.v
theories/MoshProps.v
theories/JpvModel.v
theories/JpvSpec.v
theories/JpvProof.v
theories/JpvProps.v
theories/IsoModel.v
theories/IsoSpec.v
theories/IsoProof.v
theories/IsoFinal.v
theories/IsoProps.v
theories/MixModel.v
theories/MixSpec.v
theories/MixProof.v
theories/MixFinal.v
theories/MixProps.v
theories/CountModel.v
theories/CountSpec.v
theories/CountProof.v
theories/CountFinal.v
theories/CountProps.v
theories/RelxModel.v
theories/RelxSpec.v
theories/RelxProof.v
theories/RelxProps.v
theories/ConvModel.v
theories/ConvSpec.v
theories/ConvProof.v
theories/ConvFinal.v
theories/ConvProps.v
theories/TextModel.v
theories/TextProof.v
theories/TextFinal.v
theories/TextProps.v
theories/PnModel.v
theories/PnSpec.v
theories/PnProof.v
theories/PnFinal.v
theories/PnProps.v
theories/MixMore.v
theories/JpvMore.v
theories/ObioMore.v
theories/MoshMore.v
theories/H2Layout.v
theories/ObmModel.v
theories/ObmSpec.v
theories/ObmProof.v
theories/ObmFinal.v
theories/ObmFin2.v
theories/ObmFin3.v
theories/ObmFin4.v
theories/ObmFin5.v
theories/ObmProps.v
theories/TrfModel.v
theories/TrfSpec.v
theories/TrfProof.v
theories/TrfFinal.v
theories/ObmFin6.v
theories/TrfId.v
theories/TrfCase.v
theories/TrfProps.v
theories/RmeModel.v
theories/RmeSpec.v
theories/RmeProof.v
theories/RmeFinal.v
theories/RmeUnit.v
theories/RmeSym.v
theories/RmeCase.v
theories/RmeProps.v
theories/NatModel.v
theories/NatSpec.v
theories/NatProof.v
theories/NatFinal.v
theories/NatMain.v
theories/NatCase.v
theories/NatProps.v
theories/WfModel.v
theories/WfSpec.v
theories/WfLag.v
theories/WfInt.v
theories/WfProof.v
theories/WfOsc.v
theories/WfEl.v
theories/WfSqr.v
theories/WfMesh.v
theories/WfGrid.v
theories/WfFinal.v
theories/WfCase.v
theories/WfProps.v
theories/LenModel.v
theories/LenSpec.v
theories/LenInt.v
theories/LenMesh.v
theories/LenGrid.v
theories/LenProof.v
theories/LenCm.v
theories/LenFinal.v
theories/LenUnit.v
theories/LenCase.v
theories/LenProps.v
theories/RgModel.v
theories/RgSpec.v
theories/RgProof.v
theories/RgBuild.v
theories/RgMore.v
theories/RgCase.v
theories/RgProps.v
theories/HmModel.v
theories/HmSpec.v
theories/HmProof.v
theories/HmMeans.v
theories/HmOspec.v
theories/HmOb.v
theories/HmFspec.v
theories/HmFinal.v
theories/HmCase.v
theories/HmProps.v
theories/XformStates.v
theories/XformMore.v
theories/ObsModel.v
theories/ObsSpec.v
theories/ObsProof.v
theories/ObsSum.v
theories/ObsMain.v
theories/ObsAgree.v
theories/ObsCase.v
theories/ObsProps.v
theories/StmtSpec.v
theories/StmtProof.v
theories/ObxModel.v
theories/ObxSpec.v
theories/ObxProof.v
theories/ObxMain.v
theories/ObxCase.v
theories/ObxProps.v
theories/EwgModel.v
theories/EwgSpec.v
theories/EwgProof.v
theories/EwgMain.v
theories/EwgCase.v
theories/EwgProps.v
theories/MosModel.v
theories/MosSpec.v
theories/MosProof.v
theories/MosFile.v
theories/MosCase.v
theories/MosProps.v
theories/RgnModel.v
theories/RgnSpec.v
theories/RgnInput.v
theories/RgnProof.v
theories/RgnFile.v
theories/RgnJpv.v
theories/RgnChain.v
theories/RgnCase.v
theories/RgnProps.v
theories/StatModel.v
theories/StatProof.v
theories/StatFinal.v
theories/StatProps.v
theories/DjData.v
theories/DjModel.v
theories/DjSpec.v
theories/DjProof.v
theories/DjFinal.v
theories/DjCase.v
theories/DjProps.v
theories/PgModel.v
theories/PgProof.v
theories/PgCase.v
theories/PgProps.v
theories/RgnHerm.v
theories/ScModel.v
theories/ScSpec.v
theories/ScProof.v
theories/ScFinal.v
theories/ScTotal.v
theories/ScProps.v
theories/RscModel.v
theories/RscSpec.v
theories/RscProof.v
theories/RscFinal.v
theories/RscProps.v
theories/ObioOld.v
theories/SepCharge.v
theories/IsoNeg.v
