-Q theories Verif
theories/Base.v
theories/Spec.v
theories/FwFacts.v
theories/HSort.v
theories/HSortProof.v
theories/ICArrays.v
theories/ICArraysProof.v
theories/Examples.v
theories/P_Sort.v
theories/P_Arrays.v
theories/Hash.v
theories/HashProof.v
theories/P_Hash.v
theories/BTree.v
theories/BTreeRep.v
theories/BTreeRB.v
theories/BTreeAVL.v
theories/BTreeProof.v
theories/BTreeInst.v
theories/P_Trees.v
theories/Interchange.v
theories/P_Interchange.v
theories/Bitfield.v
theories/BitfieldProof.v
theories/P_Bitfield.v
theories/NumStr.v
theories/NumStrProof.v
theories/P_NumStr.v
theories/Quote.v
theories/QuoteProof.v
theories/P_Quote.v
theories/XmlQuote.v
theories/XmlQuoteProof.v
theories/P_XmlQuote.v
theories/Ptrs.v
theories/ChildrenProof.v
theories/DfsProof.v
theories/PruneProof.v
theories/P_Ptrs.v
theories/Xdr.v
theories/XdrProof.v
theories/P_Xdr.v
theories/RArray.v
theories/RArrayProof.v
theories/P_RArray.v
theories/HashStr.v
theories/HashStrProof.v
theories/P_HashStr.v
theories/FdOffset.v
theories/FdOffsetProof.v
theories/P_FdOffset.v
theories/TdList.v
theories/TdListProof.v
theories/P_TdList.v
theories/UnionDisc.v
theories/UnionDiscProof.v
theories/P_UnionDisc.v
theories/TypeName.v
theories/TypeNameProof.v
theories/P_TypeName.v
theories/AnonUnion.v
theories/AnonUnionProof.v
theories/P_AnonUnion.v
theories/ReadXml.v
theories/ReadXmlProof.v
theories/P_ReadXml.v
theories/ConfInit.v
theories/ConfInitProof.v
theories/P_ConfInit.v
theories/Value.v
theories/ValueProof.v
theories/P_Value.v
theories/Enum.v
theories/EnumProof.v
theories/P_Enum.v
theories/ArrayGeom.v
theories/ArrayGeomProof.v
theories/P_ArrayGeom.v
theories/Load.v
theories/LoadSpec.v
theories/LoadSafe.v
theories/LoadInv.v
theories/LoadInv2.v
theories/LoadPlace.v
theories/LoadRun.v
theories/LoadRefs.v
theories/LoadTop.v
theories/LoadText.v
theories/P_Load.v
theories/CmpHash.v
theories/CmpHashSpec.v
theories/CmpHashProof.v
theories/CmpHashTree.v
theories/P_CmpHash.v
theories/TreeFacts.v
theories/CopyFree.v
theories/CopyFreeSpec.v
theories/CopyMem.v
theories/FreeProof.v
theories/CopyDup.v
theories/CopyTop.v
theories/P_CopyFree.v
theories/Save.v
theories/SaveForest.v
theories/SaveSpec.v
theories/SaveInv.v
theories/SaveSteps.v
theories/SaveRun.v
theories/SaveTop.v
theories/SavePost.v
theories/SaveTree.v
theories/SaveDone.v
theories/P_Save.v
theories/SaveTotalSpec.v
theories/SaveTotal.v
theories/SaveSize.v
theories/SaveEnds.v
theories/P_SaveTotal.v
theories/Parse.v
theories/ParseProof.v
theories/Json.v
theories/JsonParse.v
theories/LexProof.v
theories/JsonLex.v
theories/JsonSpec.v
theories/JsonSave.v
theories/JsonProof.v
theories/P_Json.v
theories/Cinit.v
theories/CinitParse.v
theories/CinitSpec.v
theories/CinitLex.v
theories/CinitSave.v
theories/CinitProof.v
theories/P_Cinit.v
theories/Scm.v
theories/ScmParse.v
theories/ScmSpec.v
theories/ScmLex.v
theories/ScmSave.v
theories/ScmProof.v
theories/P_Scm.v
theories/Xml.v
theories/XmlParse.v
theories/XmlSpec.v
theories/XmlLex.v
theories/XmlSave.v
theories/XmlProof.v
theories/P_Xml.v
theories/UnionSel.v
theories/UnionSelSpec.v
theories/UnionSelProof.v
theories/P_UnionSel.v
theories/UnionRes.v
theories/UnionResSpec.v
theories/UnionResProof.v
theories/P_UnionRes.v
theories/BTreeMore.v
theories/BTreeValid.v
theories/BTreeNext.v
theories/P_TreeMore.v
theories/Udo.v
theories/UdoSpec.v
theories/UdoProof.v
theories/P_Udo.v
theories/LoadFits.v
theories/LoadOk.v
theories/LoadOk2.v
theories/P_LoadFits.v
theories/Copy.v
theories/CopySpec.v
theories/CopyTree.v
theories/CopyPrint.v
theories/CopyLoad.v
theories/JsonCopyTop.v
theories/P_Copy.v
theories/Detect.v
theories/DetectProof.v
theories/P_Detect.v
theories/P_Validate.v
theories/Yaml.v
theories/YamlParse.v
theories/YamlMissed.v
theories/YamlSpec.v
theories/YamlSave.v
theories/YamlProof.v
theories/YamlExplain.v
theories/P_Yaml.v
theories/NumUnique.v
theories/Xml2.v
theories/Xml2Link.v
theories/Xml2Parse.v
theories/Xml2Spec.v
theories/Xml2Explain.v
theories/Xml2Save.v
theories/Xml2Proof.v
theories/P_Xml2.v
theories/DfsSkel.v
theories/Reorder.v
theories/ReorderProof.v
theories/P_Reorder.v
theories/XdrStream.v
theories/P_XdrStream.v
theories/FuncName.v
theories/P_FuncName.v
theories/Lloc.v
theories/P_Lloc.v
theories/Message.v
theories/P_Message.v
theories/Dwarf.v
theories/P_Dwarf.v
theories/DumpStruct.v
theories/DumpStructProof.v
theories/P_DumpStruct.v
theories/Names.v
theories/P_Names.v
theories/DwarfVar.v
theories/P_DwarfVar.v
theories/DwarfType.v
theories/P_DwarfType.v
theories/DwarfPrune.v
theories/P_DwarfPrune.v
theories/XdrBits.v
theories/P_XdrBits.v
theories/BasicSort.v
theories/P_BasicSort.v
theories/AssignInt.v
theories/P_AssignInt.v
theories/LoadValues.v
theories/P_LoadValues.v
theories/Print.v
theories/P_Print.v
theories/SizeField.v
theories/P_SizeField.v
