-Q theories Verif
theories/Py.v
theories/PyFloat.v
theories/ByteConv.v
theories/Shared.v
theories/ETree.v
theories/BV.v
theories/VBoxes.v
theories/VMarkers.v
theories/VSuper.v
theories/Remap.v
theories/Mix.v
theories/CheckFile.v
theories/Main.v
theories/Spec.v
theories/PBase.v
theories/PText.v
theories/Prop_Bytes.v
theories/SpecBox.v
theories/PFloat.v
theories/PEmit.v
theories/PLeaf.v
theories/PLeaf2.v
theories/SpecMarker.v
theories/PMarker.v
theories/PMarker2.v
theories/SpecRun.v
theories/SpecWalk.v
theories/SpecSuper.v
theories/SpecCS.v
theories/PRel.v
theories/PWalk.v
theories/PSuper.v
theories/PSeg.v
theories/PWrite.v
theories/PTile.v
theories/PChain.v
theories/PCS.v
theories/SpecIPL.v
theories/PIPL.v
theories/PGrow.v
theories/SpecFile.v
theories/PFile.v
theories/SpecTop.v
theories/PTop.v
theories/SpecValid.v
theories/PValid.v
theories/PEnds.v
theories/PLoop.v
theories/Ex.v
theories/Prop_Boxes.v
theories/Prop_Markers.v
theories/Prop_Options.v
theories/Prop_IPL.v
theories/Prop_Walk.v
theories/Prop_Tiles.v
theories/Prop_Top.v
theories/Prop_File.v
theories/Prop_Report.v
theories/Prop_CS.v
theories/Prop_Parts.v
theories/Prop_Trunc.v
theories/SpecText.v
theories/SpecNum.v
theories/PHuman.v
theories/Prop_Check.v
theories/Prop_Mix.v
theories/Prop_Main.v
theories/SpecMake.v
theories/PMake.v
theories/Prop_Make.v
theories/PRepr.v
theories/PAcc.v
theories/Prop_Num.v
theories/PMixNum.v
theories/SpecMix.v
theories/PMix.v
theories/PMixOk.v
theories/PMixFile.v
theories/Prop_MixFile.v
theories/SpecNames.v
theories/Prop_Names.v
theories/SpecIcc.v
theories/PIcc.v
theories/Prop_Icc.v
theories/SpecMixXmp.v
theories/PMixXmp.v
theories/Prop_MixXmp.v
theories/SpecOutcome.v
theories/POutcome.v
theories/PRaises.v
theories/Prop_Outcome.v
theories/Serial.v
theories/SpecXml.v
theories/PXml.v
theories/PSerial.v
theories/PPretty.v
theories/PDoc.v
theories/SpecXsd.v
theories/PXsd.v
theories/PXsdV.v
theories/PSchema.v
theories/Prop_Xsd.v
theories/PMixXml.v
theories/Prop_Xml.v
theories/PosixFS.v
theories/SpecFS.v
theories/PFS.v
theories/PGlob.v
theories/Prop_FS.v
theories/Prop_Glob.v
theories/SpecDoc.v
theories/Prop_End.v
theories/Argv.v
theories/SpecArgv.v
theories/PArgv.v
theories/Prop_Argv.v
theories/SpecRead.v
theories/Prop_Read.v
theories/SpecForm.v
theories/PForm.v
theories/PForm2.v
theories/Prop_Form.v
theories/SpecSame.v
theories/PSame.v
theories/PSame2.v
theories/Prop_Same.v
theories/SpecWhy.v
theories/PWhy.v
theories/Prop_Why.v
theories/SpecDamage.v
theories/PDamage.v
theories/Prop_Damage.v
theories/Prop_One.v
theories/SpecEnv.v
theories/Prop_Env.v
theories/SpecSmall.v
theories/PSmall.v
theories/Prop_Small.v
