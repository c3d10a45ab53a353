-Q theories Verif
theories/Prelude.v
theories/M_Filters.v
theories/S_Filters.v
theories/L_Filters.v
theories/L_Filters2.v
theories/L_LZW.v
theories/P_Filters.v
theories/M_Prog.v
theories/M_Buffer.v
theories/S_Buffer.v
theories/L_Buffer.v
theories/P_Buffer.v
theories/L_Prog.v
theories/M_Parser.v
theories/L_ParserWP.v
theories/L_Fuel.v
theories/P_ParserTotal.v
theories/S_Syntax.v
theories/L_Syntax.v
theories/L_Syntax2.v
theories/M_Text.v
theories/S_Print.v
theories/L_Print.v
theories/P_Syntax.v
theories/S_Stream.v
theories/L_Stream.v
theories/P_Stream.v
theories/L_Content.v
theories/P_Content.v
theories/M_Document.v
theories/S_Document.v
theories/L_Document.v
theories/P_IndObj.v
theories/P_Header.v
theories/P_StartXref.v
theories/S_Xref.v
theories/L_Xref.v
theories/L_XrefWP.v
theories/P_Xref.v
theories/S_XrefStream.v
theories/P_XrefStream.v
theories/L_User.v
theories/L_Registry.v
theories/S_Registry.v
theories/P_Registry.v
theories/P_Locate.v
theories/M_Objects.v
theories/S_Objects.v
theories/P_Objects.v
theories/P_Pages.v
theories/M_Viewer.v
theories/S_Viewer.v
theories/L_Viewer.v
theories/P_GState.v
theories/P_Text.v
theories/P_GsOps.v
theories/P_Echo.v
theories/S_Resources.v
theories/P_Resources.v
theories/M_Nav.v
theories/P_Nav.v
theories/D_Glyphs.v
theories/M_Codec.v
theories/P_Codec.v
theories/D_PSNames.v
theories/M_CMap.v
theories/S_CMap.v
theories/L_CMap.v
theories/P_CMap.v
theories/P_CMapDecode.v
theories/M_Meta.v
theories/P_Meta.v
theories/M_Image.v
theories/P_Image.v
theories/M_Crypto.v
theories/S_Crypto.v
theories/P_Crypto.v
theories/P_Decrypt.v
theories/M_CMapParser.v
theories/S_CMapFile.v
theories/L_CMapParser.v
theories/L_CMapParser2.v
theories/L_CMapWP.v
theories/P_CMapFile.v
theories/D_CCITT.v
theories/M_CCITT.v
theories/S_CCITT.v
theories/L_CCITT.v
theories/L_CCITT2.v
theories/L_CCITT3.v
theories/P_CCITT.v
theories/D_CMaps.v
theories/M_Decoder.v
theories/L_CMaps.v
theories/P_Decoder.v
theories/L_Steps.v
theories/S_Open.v
theories/P_Open.v
theories/S_Write.v
theories/P_Write.v
theories/S_History.v
theories/P_History.v
theories/M_App.v
theories/S_App.v
theories/L_AppText.v
theories/L_App.v
theories/L_App2.v
theories/L_App3.v
theories/P_App.v
theories/S_Modern.v
theories/L_Modern.v
theories/P_Modern.v
theories/S_ModWrite.v
theories/L_ModWrite.v
theories/P_ModWrite.v
theories/S_Length.v
theories/L_Leads.v
theories/L_Length.v
theories/P_Length.v
theories/M_Secure.v
theories/L_Sealed.v
theories/S_Sealed.v
theories/P_Secure.v
theories/S_Back.v
theories/L_Back.v
theories/P_Back.v
theories/S_Canvas.v
theories/P_Canvas.v
theories/S_Page.v
theories/L_Page.v
theories/L_PageDraw.v
theories/L_View.v
theories/P_View.v
theories/L_Blocks.v
theories/L_BlocksP.v
theories/L_BlocksD.v
theories/L_BlocksL.v
theories/L_BlocksO.v
theories/S_Blocks.v
theories/P_Blocks.v
theories/P_Updates.v
theories/P_NoData.v
theories/S_Mixed.v
theories/P_Mixed.v
theories/P_Strings.v
theories/P_StreamBlocks.v
theories/S_Freed.v
theories/P_Freed.v
theories/S_Raises.v
theories/L_Raises.v
theories/L_RaisesP.v
theories/L_RaisesD.v
theories/L_RaisesS.v
theories/P_Raises.v
theories/S_Split.v
theories/P_Split.v
theories/P_Annots.v
theories/S_Hybrid.v
theories/P_Hybrid.v
theories/S_Locked.v
theories/L_Locked.v
theories/P_Locked.v
theories/M_Metadata.v
theories/P_Metadata.v
theories/P_Damage.v
theories/S_Deep.v
theories/P_Deep.v
theories/P_Retold.v
theories/P_Broken.v
theories/P_Aes.v
theories/M_Device.v
theories/S_Device.v
theories/P_Device.v
theories/P_MetaFiles.v
theories/P_AesUpdates.v
theories/P_LockedPages.v
theories/P_ImageText.v
theories/P_Classes.v
theories/M_DeepRef.v
theories/P_DeepRef.v
theories/M_Codespace.v
theories/P_Codespace.v
theories/M_Merge.v
theories/P_Merge.v
theories/M_Inline.v
theories/P_Inline.v
theories/M_Equal.v
theories/P_Equal.v
