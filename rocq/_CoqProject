-Q theories Verif
theories/M_Base.v
theories/M_Text.v
theories/M_TypeStr.v
theories/M_PyLit.v
theories/M_IO.v
theories/M_Header.v
theories/M_Read.v
theories/M_Serialize.v
theories/M_DTypeErr.v
theories/M_NpyReader.v
theories/M_Write.v
theories/P_Base.v
theories/P_Text.v
theories/S_TypeStr.v
theories/S_Text.v
theories/P_TypeStr.v
theories/T_TypeStr.v
theories/T_Text.v
theories/P_PyLit.v
theories/S_DType.v
theories/P_Header.v
theories/P_IO.v
theories/T_DType.v
theories/P_Sink.v
theories/S_Header.v
theories/S_Shape.v
theories/P_Shape.v
theories/P_WriteHeader.v
theories/T_Shape.v
theories/T_WriteHeader.v
theories/S_DText.v
theories/P_DText.v
theories/T_DText.v
theories/T_IO.v
theories/S_Elem.v
theories/P_Number.v
theories/P_Elem.v
theories/P_ReadOne.v
theories/P_WriteOne.v
theories/P_Codec.v
theories/P_Sizes.v
theories/P_Default.v
theories/S_Strings.v
theories/P_Strings.v
theories/P_ElemT.v
theories/T_Elem.v
theories/P_Parse.v
theories/S_Dict.v
theories/P_Interp.v
theories/T_Parse.v
theories/S_Python.v
theories/P_Grammar.v
theories/S_Open.v
theories/P_Open.v
theories/T_Open.v
theories/S_Reader.v
theories/P_Reader.v
theories/P_Array.v
theories/P_Legacy.v
theories/T_Reader.v
theories/S_Write.v
theories/P_Writer.v
theories/P_WriteFile.v
theories/P_Session.v
theories/P_Whole.v
theories/S_Stream.v
theories/P_Stream.v
theories/T_Write.v
theories/T_Stream.v
theories/P_Weight.v
theories/P_Crash.v
theories/P_Mistaken.v
theories/P_Late.v
theories/T_Crash.v
theories/M_Npz.v
theories/M_Sparse.v
theories/S_Npz.v
theories/P_Npz.v
theories/T_Npz.v
theories/S_Sparse.v
theories/P_Sparse.v
theories/T_Sparse.v
theories/S_Archive.v
theories/P_Archive.v
theories/T_Archive.v
theories/S_Reject.v
theories/S_Message.v
theories/P_Reject.v
theories/P_Refuse.v
theories/P_Message.v
theories/P_WithHeader.v
theories/T_Refuse.v
theories/T_Message.v
theories/M_TypeErr.v
theories/S_TypeErr.v
theories/P_TypeErr.v
theories/T_TypeErr.v
theories/P_Bytes.v
theories/S_File.v
theories/P_File.v
theories/T_File.v
theories/S_Address.v
theories/P_Address.v
theories/T_Address.v
theories/S_Defect.v
theories/P_Defect.v
theories/T_Defect.v
theories/S_Fault.v
theories/P_Fault.v
theories/T_Fault.v
theories/S_Broken.v
theories/P_Broken.v
theories/T_Broken.v
theories/S_Outcome.v
theories/P_Outcome.v
theories/T_Outcome.v
theories/S_History.v
theories/S_Late.v
theories/P_History.v
theories/T_History.v
theories/T_Late.v
theories/S_Roomy.v
theories/P_Roomy.v
theories/T_Roomy.v
theories/S_Member.v
theories/P_Member.v
theories/T_Member.v
theories/S_Auto.v
theories/P_Auto.v
theories/T_Auto.v
theories/P_Counted.v
theories/T_Counted.v
theories/M_Buffered.v
theories/P_Buffered.v
theories/T_Buffered.v
theories/M_Source.v
theories/S_Source.v
theories/P_Source.v
theories/T_Source.v
theories/M_Flaky.v
theories/S_Flaky.v
theories/P_Flaky.v
theories/T_Flaky.v
theories/S_SparseOut.v
theories/P_SparseOut.v
theories/T_SparseOut.v
theories/T_Edges.v
theories/T_Edges2.v
theories/M_Derive.v
theories/S_Derive.v
theories/P_Derive.v
theories/T_Derive.v
theories/M_Own.v
theories/S_Own.v
theories/P_Own.v
theories/T_Own.v
theories/M_Shaky.v
theories/S_Shaky.v
theories/P_Shaky.v
theories/T_Shaky.v
theories/T_Tests1.v
theories/T_Tests2.v
theories/T_TestData.v
theories/T_Tests3.v
theories/S_Numpy.v
theories/P_Numpy.v
theories/P_Latin.v
theories/T_Numpy.v
theories/S_NumpyRead.v
theories/P_NumpyRead.v
theories/T_NumpyRead.v
theories/S_Cross.v
theories/P_Cross.v
theories/T_Cross.v
theories/M_Literal.v
theories/S_Literal.v
theories/P_Literal.v
theories/T_Literal.v
theories/S_Tally.v
theories/P_Tally.v
theories/T_Tally.v
theories/M_Spill.v
theories/S_Spill.v
theories/P_Spill.v
theories/T_Spill.v
theories/S_Stopped.v
theories/P_Stopped.v
theories/P_Refused.v
theories/T_Stopped.v
theories/S_Halted.v
theories/P_Halted.v
theories/T_Halted.v
theories/M_Zip.v
theories/S_Zip.v
theories/P_Zip.v
theories/T_Zip.v
theories/M_Checksum.v
theories/P_Checksum.v
theories/T_Checksum.v
theories/M_ZipSparse.v
theories/S_ZipSparse.v
theories/P_ZipSparse.v
theories/T_ZipSparse.v
theories/M_Demand.v
theories/S_Demand.v
theories/P_Demand.v
theories/T_Demand.v
theories/M_Stack.v
theories/S_Stack.v
theories/P_Stack.v
theories/T_Stack.v
