-Q theories Verif
theories/AudioHeaders_Model.v
theories/AudioHeaders_Props.v
theories/AudioHeaders_Spec.v
theories/Base.v
theories/Base128_Model.v
theories/Base128_Proof.v
theories/Base128_Props.v
theories/Base128_Spec.v
theories/BinDump_Model.v
theories/BinDump_Proof.v
theories/BinDump_Props.v
theories/BinDump_Spec.v
theories/BinFile_Model.v
theories/BinFile_Props.v
theories/BinFile_Spec.v
theories/Bitfield_Model.v
theories/Bitfield_Proof.v
theories/Bitfield_Props.v
theories/Bitfield_Spec.v
theories/BlockSimd_Model.v
theories/BlockSimd_Proof.v
theories/BlockSimd_Props.v
theories/Block_Model.v
theories/Block_Proof.v
theories/Block_Props.v
theories/Block_Spec.v
theories/BlowfishKey_Proof.v
theories/BlowfishKey_Spec.v
theories/BlowfishPi_Limbs.v
theories/BlowfishPi_Proof.v
theories/BlowfishPi_Props.v
theories/BlowfishPi_Spec.v
theories/BlowfishVirtual_Props.v
theories/Blowfish_Model.v
theories/Blowfish_Proof.v
theories/Blowfish_Props.v
theories/Blowfish_Spec.v
theories/Blowfish_Tables.v
theories/Blue_Model.v
theories/Blue_Proof.v
theories/Blue_Props.v
theories/Blue_Spec.v
theories/Branch_Model.v
theories/Branch_Props.v
theories/ConsoleTerm_Props.v
theories/ConsoleTerm_Spec.v
theories/Console_Model.v
theories/Console_Props.v
theories/Console_Spec.v
theories/DdsNames_Props.v
theories/DdsNames_Spec.v
theories/Dds_Model.v
theories/Dds_Proof.v
theories/Dds_Props.v
theories/Dds_Spec.v
theories/DirScan_Model.v
theories/DirScan_Proof.v
theories/DirScan_Props.v
theories/DirScan_Spec.v
theories/Endian_Model.v
theories/Endian_Proof.v
theories/Endian_Props.v
theories/Endian_Spec.v
theories/Errors_Model.v
theories/Errors_Props.v
theories/Errors_Spec.v
theories/FileInfo_Model.v
theories/FileInfo_Proof.v
theories/FileInfo_Props.v
theories/FileInfo_Spec.v
theories/Flags_Model.v
theories/Flags_Proof.v
theories/Flags_Props.v
theories/Flags_Spec.v
theories/FloatBack_Proof.v
theories/FloatBack_Props.v
theories/FloatNear_Props.v
theories/FloatText_Model.v
theories/FloatText_Near.v
theories/FloatText_Near2.v
theories/FloatText_Print.v
theories/FloatText_Proof.v
theories/FloatText_Proof2.v
theories/FloatText_Props.v
theories/FloatText_Spec.v
theories/FloatText_Text.v
theories/Float_Model.v
theories/Float_Mul_Proof.v
theories/Float_Proof.v
theories/HalfFloat_Model.v
theories/HalfFloat_Proof.v
theories/HalfFloat_Props.v
theories/HalfFloat_Spec.v
theories/Help_Model.v
theories/Help_Props.v
theories/Help_Spec.v
theories/HkPreset_Model.v
theories/HkPreset_Props.v
theories/HkPreset_Spec.v
theories/Jenkins_Model.v
theories/Jenkins_Proof.v
theories/Jenkins_Props.v
theories/Jenkins_Spec.v
theories/MacroLoop_Model.v
theories/MacroLoop_Props.v
theories/Matrix_Float_Proof.v
theories/Matrix_Model.v
theories/Matrix_Proof.v
theories/Matrix_Props.v
theories/Matrix_Spec.v
theories/MaxEx_Model.v
theories/MaxEx_Props.v
theories/Morton_Model.v
theories/Morton_Proof.v
theories/Morton_Props.v
theories/Morton_Spec.v
theories/NodeName_Model.v
theories/NodeName_Props.v
theories/NodeName_Spec.v
theories/Ownership_Model.v
theories/Ownership_Proof.v
theories/Ownership_Props.v
theories/Ownership_Spec.v
theories/Pointer_Model.v
theories/Pointer_Props.v
theories/PrinterTerm_Props.v
theories/Printer_Model.v
theories/Printer_Proof.v
theories/Printer_Props.v
theories/Printer_Spec.v
theories/Pugiex_Model.v
theories/Pugiex_Props.v
theories/Pugiex_Spec.v
theories/PyUni_Model.v
theories/PyUni_Props.v
theories/PyUni_Spec.v
theories/PyVal_Model.v
theories/PyVal_Proof.v
theories/PyVal_Props.v
theories/PyVal_Spec.v
theories/RefAccess_Model.v
theories/RefAccess_Props.v
theories/RefDbHeld_Model.v
theories/RefDbHeld_Props.v
theories/RefDb_Arrays_Proof.v
theories/RefDb_Enums_Proof.v
theories/RefDb_Facts_Proof.v
theories/RefDb_Layout_Proof.v
theories/RefDb_Load_Proof.v
theories/RefDb_Loop_Proof.v
theories/RefDb_Model.v
theories/RefDb_Proof.v
theories/RefDb_Props.v
theories/RefDb_Size_Proof.v
theories/RefDb_Slots_Proof.v
theories/RefDb_Spec.v
theories/RefDb_View_Proof.v
theories/Reflector_Array_Proof.v
theories/Reflector_Array_Props.v
theories/Reflector_Enum_Props.v
theories/Reflector_Flags_Proof.v
theories/Reflector_Fmt_Proof.v
theories/Reflector_Model.v
theories/Reflector_Proof.v
theories/Reflector_Props.v
theories/Reflector_Spec.v
theories/Registry_Model.v
theories/Registry_Props.v
theories/Simd_Model.v
theories/Stat_Model.v
theories/Stat_Props.v
theories/Stat_Spec.v
theories/Stream_Model.v
theories/Stream_Nav_Proof.v
theories/Stream_Proof.v
theories/Stream_Props.v
theories/Stream_Spec.v
theories/StringView_Model.v
theories/StringView_Proof.v
theories/StringView_Props.v
theories/StringView_Spec.v
theories/Supercore_Model.v
theories/Supercore_Proof.v
theories/Supercore_Props.v
theories/Supercore_Spec.v
theories/ThreadQueue_Model.v
theories/ThreadQueue_Proof.v
theories/ThreadQueue_Props.v
theories/UniFormat_Float_Proof.v
theories/UniFormat_Model.v
theories/UniFormat_Norm_Proof.v
theories/UniFormat_Proof.v
theories/UniFormat_Props.v
theories/UniFormat_Read_Proof.v
theories/UniFormat_Spec.v
theories/UniList_Model.v
theories/UniList_Props.v
theories/UniModel_Model.v
theories/UniModel_Props.v
theories/Unicode_Model.v
theories/Unicode_Proof.v
theories/Unicode_Props.v
theories/Unicode_Spec.v
theories/UnitTest_Model.v
theories/UnitTest_Proof.v
theories/UnitTest_Props.v
theories/UnitTest_Spec.v
theories/VecNarrow_Model.v
theories/VecNarrow_Proof.v
theories/VecNarrow_Props.v
theories/VecNarrow_Spec.v
theories/VecText_Model.v
theories/VecText_Props.v
theories/VecText_Spec.v
theories/Vector_Model.v
theories/Vector_Proof.v
theories/Vector_Props.v
theories/Vector_Spec.v
theories/View_Model.v
theories/View_Props.v
theories/View_Spec.v
theories/Wave_Model.v
theories/Wave_Props.v
theories/Writes.v
theories/XmlAgain2_Proof.v
theories/XmlAgain2_Props.v
theories/XmlAgain2_Spec.v
theories/XmlAgain_Proof.v
theories/XmlAgain_Props.v
theories/XmlAgain_Spec.v
theories/XmlRefl2_Cover_Proof.v
theories/XmlRefl2_Leaf_Proof.v
theories/XmlRefl2_Member_Proof.v
theories/XmlRefl2_Model.v
theories/XmlRefl2_Proof.v
theories/XmlRefl2_Props.v
theories/XmlRefl2_Spec.v
theories/XmlRefl_Bits_Proof.v
theories/XmlRefl_Leaf_Proof.v
theories/XmlRefl_Model.v
theories/XmlRefl_Names_Proof.v
theories/XmlRefl_Proof.v
theories/XmlRefl_Props.v
theories/XmlRefl_Spec.v
theories/Xor_Model.v
theories/Xor_Props.v
theories/ZipWrite_Archive.v
theories/ZipWrite_Model.v
theories/ZipWrite_Proof.v
theories/ZipWrite_Props.v
theories/ZipWrite_Spec.v
theories/Zip_Model.v
theories/Zip_Proof.v
theories/Zip_Props.v
theories/Zip_Spec.v
