-Q theories Verif
theories/M_Base.v
theories/M_Heap.v
theories/M_Frame.v
theories/Spec.v
theories/P_Base.v
theories/P_Maps.v
theories/P_View.v
theories/P_View2.v
theories/P_Order.v
theories/P_Float.v
theories/P_View3.v
theories/P_Write.v
theories/P_Fill.v
theories/P_Detach.v
theories/P_Struct.v
theories/P_Struct2.v
theories/P_Struct3.v
theories/P_Over.v
theories/P_Share.v
theories/P_Priv.v
theories/M_Build.v
theories/P_Check.v
theories/P_Asort.v
theories/P_ViewMain.v
theories/Prop_View.v
theories/P_WriteMain.v
theories/Prop_Write.v
theories/Spec_Read.v
theories/P_Read.v
theories/P_Hash.v
theories/Spec_Concat.v
theories/P_Concat.v
theories/P_Concat2.v
theories/P_Concat3.v
theories/P_Append.v
theories/P_Append2.v
theories/P_Builder.v
theories/P_ReadMain.v
theories/Prop_Read.v
theories/P_World.v
theories/P_WorldMain.v
theories/Prop_World.v
theories/P_Cpu.v
theories/M_Utils.v
theories/P_Utils.v
theories/P_UtilsMain.v
theories/Prop_Utils.v
theories/Spec_Batch.v
theories/M_Batch.v
theories/P_Batch.v
theories/P_Batch2.v
theories/P_BatchMain.v
theories/Prop_Batch.v
theories/M_Encode.v
theories/Spec_Encode.v
theories/P_Cells.v
theories/P_Encode.v
theories/P_EncodeMain.v
theories/Prop_Encode.v
theories/M_Pool.v
theories/P_Pool.v
theories/P_Pool2.v
theories/P_Pool3.v
theories/P_Pool4.v
theories/P_PoolHash.v
theories/P_PoolMain.v
theories/Prop_Pool.v
theories/M_Csv.v
theories/M_Files.v
theories/P_Csv.v
theories/Spec_Csv.v
theories/P_Csv2.v
theories/P_Csv3.v
theories/P_Csv4.v
theories/M_CsvW.v
theories/P_CsvW.v
theories/P_CsvW2.v
theories/P_Csv5.v
theories/P_CsvMain.v
theories/P_Exec.v
theories/P_SliceMain.v
theories/Prop_Slice.v
theories/P_FilesMain.v
theories/Prop_Files.v
theories/P_FloatEx.v
theories/P_ConstMain.v
theories/Prop_Const.v
theories/Prop_Csv.v
theories/M_Arith.v
theories/M_Prep.v
theories/Spec_Prep.v
theories/P_Prep.v
theories/P_Prep2.v
theories/P_PrepPool.v
theories/P_Exact.v
theories/P_Float2.v
theories/P_PrepMain.v
theories/Prop_Prep.v
theories/M_OneHot.v
theories/Spec_OneHot.v
theories/P_OneHot.v
theories/P_OneHot2.v
theories/P_OneHot3.v
theories/P_OneHot4.v
theories/P_OneHotMain.v
theories/Prop_OneHot.v
theories/M_Auto.v
theories/Spec_Auto.v
theories/P_Auto.v
theories/P_Auto2.v
theories/P_Auto3.v
theories/P_Auto4.v
theories/P_Auto5.v
theories/P_Auto6.v
theories/P_AutoMain.v
theories/Prop_Auto.v
theories/M_LinReg.v
theories/Spec_LinReg.v
theories/P_LinReg.v
theories/P_LinReg2.v
theories/P_LinReg3.v
theories/P_LinReg4.v
theories/P_LinReg5.v
theories/P_LinReg6.v
theories/P_LinRegR.v
theories/P_LinRegR2.v
theories/P_LinRegR3.v
theories/P_LinRegR4.v
theories/P_LinRegMain.v
theories/Prop_LinReg.v
theories/P_AllocMain.v
theories/Prop_Alloc.v
theories/M_Print.v
theories/Spec_Print.v
theories/P_Print.v
theories/P_PrintMain.v
theories/Prop_Print.v
theories/M_Check.v
theories/P_ConsMain.v
theories/Prop_Cons.v
theories/M_CsvText.v
theories/Spec_CsvText.v
theories/P_CsvText.v
theories/P_TextMain.v
theories/Prop_Text.v
theories/P_Text2Main.v
theories/Prop_Text2.v
theories/Spec_Text3.v
theories/P_Text3Main.v
theories/Prop_Text3.v
theories/P_RaceMain.v
theories/Prop_Race.v
theories/M_Json.v
theories/Spec_Json.v
theories/P_Json.v
theories/P_Json2.v
theories/P_Json3.v
theories/P_JsonMain.v
theories/Prop_Json.v
theories/M_Summary.v
theories/P_SummaryMain.v
theories/Prop_Summary.v
theories/M_Example.v
theories/Spec_Example.v
theories/P_Example.v
theories/P_Example2.v
theories/P_Example3.v
theories/P_ExampleMain.v
theories/Prop_Example.v
theories/M_Strconv.v
theories/Spec_Strconv.v
theories/P_Strconv.v
theories/P_Strconv2.v
theories/P_Strconv3.v
theories/P_Strconv4.v
theories/P_Strconv5.v
theories/P_Strconv6.v
theories/P_Strconv7.v
theories/P_StrconvMain.v
theories/Prop_Strconv.v
theories/Spec_Under.v
theories/P_Strconv8.v
theories/P_Strconv9.v
theories/Prop_Strconv2.v
theories/M_Writers.v
theories/P_Writers.v
theories/P_WritersMain.v
theories/Prop_Writers.v
theories/M_Output.v
theories/Spec_Output.v
theories/P_Output.v
theories/P_OutputMain.v
theories/Prop_Output.v
theories/M_Program.v
theories/M_Outdir.v
theories/Spec_Program.v
theories/P_ProgramMain.v
theories/P_OutdirMain.v
theories/Prop_Outdir.v
theories/Prop_Program.v
theories/M_Asserts.v
theories/Spec_Asserts.v
theories/P_AssertsMain.v
theories/Prop_Asserts.v
theories/M_Fixed.v
theories/Spec_Fixed.v
theories/P_Fixed.v
theories/P_FixedMain.v
theories/Prop_Fixed.v
theories/P_EmulateMain.v
theories/Prop_Emulate.v
theories/M_Uid.v
theories/Spec_Uid.v
theories/P_Uid.v
theories/P_UidMain.v
theories/Prop_Uid.v
theories/Spec_Dir.v
theories/P_DirMain.v
theories/Prop_Dir.v
theories/Spec_Contract.v
theories/P_ContractMain.v
theories/Prop_Contract.v
theories/Spec_Output2.v
theories/P_Output2Main.v
theories/Prop_Output2.v
theories/M_Fill.v
theories/Spec_Fill.v
theories/P_FillMain.v
theories/Prop_Fill.v
theories/Spec_NoCopy.v
theories/P_NoCopyMain.v
theories/Prop_NoCopy.v
theories/Spec_Hash2.v
theories/P_Hash2Main.v
theories/Prop_Hash2.v
theories/M_FitMaps.v
theories/P_FitMapsMain.v
theories/Prop_FitMaps.v
theories/M_Fmt.v
theories/Spec_Fmt.v
theories/P_FmtMain.v
theories/Prop_Fmt.v
theories/M_Recipes.v
theories/Spec_Recipes.v
theories/P_RecipesMain.v
theories/Prop_Recipes.v
theories/Spec_Extra.v
theories/P_ExtraMain.v
theories/Prop_Extra.v
theories/Spec_Cost.v
theories/P_CostMain.v
theories/Prop_Cost.v
theories/M_Internals.v
theories/P_InternalsMain.v
theories/Prop_Internals.v
theories/M_VecDense.v
theories/P_VecDenseMain.v
theories/Prop_VecDense.v
theories/P_VectorMain.v
theories/Prop_Vector.v
theories/P_AlgebraMain.v
theories/Prop_Algebra.v
theories/P_RowsMain.v
theories/Prop_Rows.v
theories/Spec_Fair.v
theories/P_FairMain.v
theories/Prop_Fair.v
theories/P_DecodeMain.v
theories/Prop_Decode.v
theories/P_OrderMain.v
theories/Prop_Order.v
theories/P_TwiceMain.v
theories/Prop_Twice.v
theories/P_ErrorsMain.v
theories/Prop_Errors.v
theories/P_UnitsMain.v
theories/Prop_Units.v
theories/P_FilledMain.v
theories/Prop_Filled.v
theories/P_LinearMain.v
theories/Prop_Linear.v
theories/P_WholeMain.v
theories/Prop_Whole.v
theories/P_MonoMain.v
theories/Prop_Mono.v
theories/P_OutlierMain.v
theories/Prop_Outlier.v
theories/P_BaselineMain.v
theories/Prop_Baseline.v
theories/P_TargetMain.v
theories/Prop_Target.v
theories/A_Order.v
