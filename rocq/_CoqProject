-Q theories Verif

theories/Base.v
theories/Bytes.v
theories/Nand.v
theories/Journal.v
theories/MapModel.v
theories/Api.v
theories/Wp.v
theories/BytesLemmas.v
theories/Tree.v
theories/Rep.v
theories/Age.v
theories/Geom.v
theories/Inv.v
theories/Hdr.v
theories/StepDI.v
theories/StepNand.v
theories/StepJ.v
theories/StepA.v
theories/StepR.v
theories/StepS.v
theories/StepG.v
theories/Resume.v
theories/Spec.v
theories/Ppc.v
theories/MapStep.v
theories/MapOps.v
theories/History.v
theories/Pres.v
theories/San.v
theories/Top.v
theories/Bm.v
theories/Rec.v
theories/Rec2.v
theories/Rec3.v
theories/Rec4.v
theories/Rec5.v
theories/Rec6.v
theories/Rec7.v
theories/RecTree.v
theories/RecMap.v
theories/RecOps.v
theories/RecOps2.v
theories/RecOps3.v
theories/RecOps4.v
theories/Props.v
theories/SpecF.v
theories/HistF.v
theories/Wear.v
theories/Quiet.v
theories/Examples.v
theories/Examples2.v
theories/Misc.v
theories/Refute.v
theories/EccBits.v
theories/Hamming.v
theories/Crc32.v
theories/Gf13Tab.v
theories/Gf13.v
theories/Fpoly.v
theories/Bch.v
theories/BchProof.v
theories/EccBound.v
theories/Copy.v
theories/CopyProps.v
theories/ExamplesC.v
theories/Check.v
theories/CheckMap.v
theories/Live.v
theories/LiveProps.v
theories/ExamplesF.v
theories/JSpec.v
theories/JChain.v
theories/JProps.v
theories/JThms.v
theories/JFull.v
theories/Cnt.v
theories/Bb.v
theories/Ckpt.v
theories/Loc.v
theories/Nojunk.v
theories/Space.v
theories/ExamplesJ.v
theories/Work.v
theories/ExamplesW.v
theories/Gentab.v
theories/Gf2x.v
theories/Gftool.v
theories/Gfbch.v
theories/Room.v
theories/Orderly.v
theories/ExamplesR.v
theories/NoEcc.v
theories/ExamplesO.v
theories/RefuteR.v
theories/Move.v
theories/CopyRoom.v
theories/ExamplesP.v
theories/HamBound.v
theories/RefuteP.v
theories/Idle.v
theories/Small.v
theories/SmallRoom.v
theories/SmallMore.v
