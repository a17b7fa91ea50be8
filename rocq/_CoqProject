-Q theories Verif
theories/PyBase.v
theories/M_Data.v
theories/M_Numeric.v
theories/M_Flags.v
theories/M_Models.v
theories/M_Class.v
theories/M_Var.v
theories/M_Real.v
theories/M_Complex.v
theories/M_List.v
theories/M_Tok.v
theories/M_Group.v
theories/M_Pic.v
theories/M_Gdb.v
theories/M_Flash.v
theories/M_File.v
theories/M_Name.v
theories/M_Os.v
theories/M_Text.v
theories/M_CText.v
theories/M_GdbDict.v
theories/M_Load.v
theories/M_TText.v
theories/M_Pil.v
theories/M_Format.v
theories/M_CList.v
theories/M_Float.v
theories/M_Json.v
theories/M_Fraction.v
theories/M_GdbText.v
theories/M_RadDec.v
theories/M_Copy.v
theories/M_SetDict.v
theories/M_FlagsOrd.v
theories/M_Sheet.v
theories/M_License.v
theories/L_Base.v
theories/S_Data.v
theories/L_Data.v
theories/L_Flags.v
theories/P_Data.v
theories/S_Var.v
theories/L_Models.v
theories/P_Models.v
theories/L_Var.v
theories/L_VarFile.v
theories/P_Var.v
theories/S_File.v
theories/P_File.v
theories/S_Real.v
theories/L_Real.v
theories/L_Frac.v
theories/L_Radical.v
theories/P_Real.v
theories/S_Complex.v
theories/L_Complex.v
theories/P_Complex.v
theories/L_Kinds.v
theories/P_Kinds.v
theories/S_List.v
theories/L_List.v
theories/P_List.v
theories/S_Tok.v
theories/L_Tok.v
theories/L_Encode.v
theories/P_Tok.v
theories/P_Name.v
theories/S_Group.v
theories/L_Group.v
theories/P_Group.v
theories/S_Pic.v
theories/L_Pic.v
theories/P_Pic.v
theories/S_Gdb.v
theories/L_Gdb.v
theories/P_Gdb.v
theories/S_Flash.v
theories/L_Flash.v
theories/P_Flash.v
theories/P_Os.v
theories/L_Pi.v
theories/P_Text.v
theories/P_ListText.v
theories/S_Smart.v
theories/P_Smart.v
theories/P_More.v
theories/S_CText.v
theories/P_CText.v
theories/S_GdbDict.v
theories/L_GdbDict.v
theories/L_GdbLoad.v
theories/P_GdbDict.v
theories/L_Load.v
theories/P_Load.v
theories/P_TText.v
theories/L_Pil.v
theories/P_Pil.v
theories/S_Format.v
theories/L_Format.v
theories/P_Format.v
theories/P_CList.v
theories/S_Float.v
theories/L_Float.v
theories/P_Float.v
theories/L_Json.v
theories/P_Json.v
theories/S_Fraction.v
theories/L_Fraction.v
theories/P_Fraction.v
theories/L_GdbText.v
theories/P_GdbText.v
theories/L_RadDec.v
theories/P_RadDec.v
theories/P_Copy.v
theories/S_ClassOf.v
theories/L_ClassOf.v
theories/P_ClassOf.v
theories/P_SetDict.v
theories/P_TokText.v
theories/P_FlagsOrd.v
theories/P_Sheet.v
theories/P_License.v
theories/P_Root.v
theories/P_End.v
theories/P_EndPic.v
theories/P_EndNum.v
theories/P_EndFile.v
theories/P_EndGroup.v
theories/M_GraphReal.v
theories/P_GraphReal.v
theories/P_Cut.v
theories/P_Resave.v
theories/P_Settle.v
theories/P_Raise.v
theories/P_Ungroup.v
theories/P_FlashAny.v
theories/P_Line.v
theories/P_Lines.v
