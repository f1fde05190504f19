-Q theories Verif
theories/Golden/Flat.v
theories/Golden/Libm.v
theories/Golden/RDeep.v
theories/Golden/RRes.v
theories/Golden/RSat.v
theories/Golden/Sats.v
theories/Golden/SatsRun.v
theories/Golden/Vectors.v
theories/Inst/ApxCalc.v
theories/Inst/Atan2.v
theories/Inst/B64.v
theories/Inst/B64Approx.v
theories/Inst/B64Calc.v
theories/Inst/B64Facts.v
theories/Inst/B64Rem.v
theories/Inst/PiBounds.v
theories/Inst/RInst.v
theories/Inst/RTac.v
theories/Model/Constants.v
theories/Model/Doppler.v
theories/Model/Dpper.v
theories/Model/Dscom.v
theories/Model/Dsinit.v
theories/Model/Dspace.v
theories/Model/Ext.v
theories/Model/Float.v
theories/Model/Gstime.v
theories/Model/Initl.v
theories/Model/Io.v
theories/Model/Machine.v
theories/Model/Propagate.v
theories/Model/Satrec.v
theories/Model/Sgp4.v
theories/Model/Sgp4init.v
theories/Model/Str.v
theories/Model/Transforms.v
theories/Model/Vec3.v
theories/Proofs/AccBoot.v
theories/Proofs/AccEnd.v
theories/Proofs/AccInit.v
theories/Proofs/AccKepler.v
theories/Proofs/AccKeplerHigh.v
theories/Proofs/AccLow.v
theories/Proofs/AccNear.v
theories/Proofs/AccSecular.v
theories/Proofs/AccSgp4.v
theories/Proofs/AccState.v
theories/Proofs/AccTail.v
theories/Proofs/AccWeek.v
theories/Proofs/ApxFun.v
theories/Proofs/CalcAngle.v
theories/Proofs/CalcFun.v
theories/Proofs/CalcPow.v
theories/Proofs/CalendarFacts.v
theories/Proofs/CurvatureFacts.v
theories/Proofs/DecodeFacts.v
theories/Proofs/DeepBoot.v
theories/Proofs/DeepFrame.v
theories/Proofs/DeepInit.v
theories/Proofs/DeepKozai.v
theories/Proofs/DeepMoon.v
theories/Proofs/DeepNear.v
theories/Proofs/DeepPer.v
theories/Proofs/DeepRun.v
theories/Proofs/DeepSec.v
theories/Proofs/DeepTail.v
theories/Proofs/DragFacts.v
theories/Proofs/DspaceB64.v
theories/Proofs/DspaceLoop.v
theories/Proofs/DspaceR.v
theories/Proofs/DspaceSession.v
theories/Proofs/ExtFacts.v
theories/Proofs/FrameR.v
theories/Proofs/GeoAcc.v
theories/Proofs/GeodeticError.v
theories/Proofs/HighBoot.v
theories/Proofs/HighKozai.v
theories/Proofs/HighLip.v
theories/Proofs/HighMoon.v
theories/Proofs/HighNear.v
theories/Proofs/HighPer.v
theories/Proofs/HighRun.v
theories/Proofs/HighSec.v
theories/Proofs/HighTail.v
theories/Proofs/InitElems.v
theories/Proofs/InitFrame.v
theories/Proofs/InitKind.v
theories/Proofs/InitTotal.v
theories/Proofs/IoFacts.v
theories/Proofs/JdayFacts.v
theories/Proofs/KeplerFacts.v
theories/Proofs/KeplerHigh.v
theories/Proofs/LibmExists.v
theories/Proofs/LongFacts.v
theories/Proofs/NanFacts.v
theories/Proofs/NumFacts.v
theories/Proofs/PanicFacts.v
theories/Proofs/ParseFacts.v
theories/Proofs/ResonanceFacts.v
theories/Proofs/SameState.v
theories/Proofs/Sgp4Errors.v
theories/Proofs/Sgp4Frame.v
theories/Proofs/StateFacts.v
theories/Proofs/Str3Init.v
theories/Proofs/Str3State.v
theories/Proofs/StrFacts.v
theories/Proofs/SymmetryFacts.v
theories/Proofs/TextFacts.v
theories/Proofs/ThirdBodyFacts.v
theories/Proofs/TransformFacts.v
theories/Proofs/VisViva.v
theories/Props/C01.v
theories/Props/C02.v
theories/Props/C03.v
theories/Props/C04.v
theories/Props/C05.v
theories/Props/C06.v
theories/Props/C07.v
theories/Props/C08.v
theories/Props/C09.v
theories/Props/C10.v
theories/Props/C11.v
theories/Props/C12.v
theories/Props/C13.v
theories/Props/C14.v
theories/Props/C15.v
theories/Props/C16.v
theories/Props/C17.v
theories/Props/C18.v
theories/Props/C19.v
theories/Props/C20.v
theories/Props/C21.v
theories/Props/C22.v
theories/Props/C23.v
theories/Props/C24.v
theories/Props/C25.v
theories/Props/C26.v
theories/Props/C27.v
theories/Props/C28.v
theories/Props/C29.v
theories/Props/C30.v
theories/Props/C31.v
theories/Props/C32.v
theories/Props/C33.v
theories/Props/C34.v
theories/Props/C35.v
theories/Props/C36.v
theories/Props/C37.v
theories/Props/C38.v
theories/Props/C39.v
theories/Props/C40.v
theories/Props/C41.v
theories/Props/C42.v
theories/Props/C43.v
theories/Props/C44.v
theories/Props/C45.v
theories/Props/C46.v
theories/Props/C47.v
theories/Props/C48.v
theories/Props/C49.v
theories/Props/C50.v
theories/Props/C51.v
theories/Props/C52.v
theories/Props/C53.v
theories/Props/C54.v
theories/Props/C55.v
theories/Props/C56.v
theories/Props/C57.v
theories/Props/C58.v
theories/Props/C59.v
theories/Props/C60.v
theories/Props/C61.v
theories/Props/C62.v
theories/Props/C63.v
theories/Props/C64.v
theories/Props/C65.v
theories/Props/C66.v
theories/Props/C67.v
theories/Props/C68.v
theories/Props/C69.v
theories/Props/C70.v
theories/Props/C71.v
theories/Props/C72.v
theories/Props/C73.v
theories/Props/C74.v
theories/Spec/Agreement.v
theories/Spec/Calendar.v
theories/Spec/DeepAccuracy.v
theories/Spec/DeepSpec.v
theories/Spec/DspaceSpec.v
theories/Spec/Energy.v
theories/Spec/KeplerSpec.v
theories/Spec/LibmAccuracy.v
theories/Spec/NearAccuracy.v
theories/Spec/NumText.v
theories/Spec/Outcome.v
theories/Spec/PeriodicSpec.v
theories/Spec/Resonance.v
theories/Spec/Sgp4Spec.v
theories/Spec/StateSpec.v
theories/Spec/Str3.v
theories/Spec/Str3Api.v
theories/Spec/Symmetry.v
theories/Spec/TextSpec.v
theories/Spec/ThirdBody.v
theories/Spec/TleSpec.v
theories/Spec/Vectors3.v
theories/Spec/Visibility.v
