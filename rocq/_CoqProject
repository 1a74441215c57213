-Q theories Verif
theories/Go.v
theories/GoLemmas.v
theories/M_Crc.v
theories/M_Bitio.v
theories/M_Maketree.v
theories/M_Maketbl.v
theories/M_Huf.v
theories/M_Slide.v
theories/M_Decode.v
theories/S_Crc.v
theories/P_Crc.v
theories/S_Bits.v
theories/P_Bits.v
theories/Properties_Crc.v
theories/P_Bitio.v
theories/S_Huff.v
theories/P_Huff.v
theories/P_Maketree.v
theories/P_Maketbl.v
theories/P_HufCode.v
theories/P_HufTables.v
theories/P_HufLens.v
theories/P_HufBlock.v
theories/P_HufSend.v
theories/P_HufEnc.v
theories/P_HufOut.v
theories/P_HufStream.v
theories/Properties_Bitio.v
theories/Properties_Huff.v
theories/S_Lz.v
theories/P_Lz.v
theories/P_Decode.v
theories/P_Slide.v
theories/P_Encode.v
theories/P_DecAny.v
theories/P_EncKeep.v
theories/P_DecOld.v
theories/M_Lzhuf.v
theories/S_History.v
theories/P_RoundTrip.v
theories/Properties_Slide.v
theories/S_Larc.v
theories/S_Lh1.v
theories/S_Lh5.v
theories/P_Tree.v
theories/P_Blocks.v
theories/P_Build.v
theories/P_Dhuf.v
theories/P_Reconst.v
theories/P_Lh1Start.v
theories/P_DhKeep.v
theories/P_Lh1.v
theories/S_Lh3.v
theories/P_Lh3.v
theories/Properties_Lh3.v
theories/S_Pm2.v
theories/P_Pm2.v
theories/P_PmKeep.v
theories/Properties_Pm2Entry.v
theories/S_Grow.v
theories/P_Grow.v
theories/P_GrowAll.v
theories/S_GrowList.v
theories/P_GrowList.v
theories/Properties_Grow.v
theories/P_Lh5.v
theories/P_Stream.v
theories/Properties_Lh5.v
theories/P_Larc.v
theories/Properties_Larc.v
theories/Properties_Lh1.v
theories/M_Header.v
theories/S_Header.v
theories/P_Header.v
theories/Properties_Header.v
theories/M_Os.v
theories/M_Archive.v
theories/P_Os.v
theories/P_Backup.v
theories/P_Add.v
theories/P_Single.v
theories/S_Archive.v
theories/Properties_Archive.v
theories/P_Extract.v
theories/P_Still.v
theories/P_Read1.v
theories/S_Extract.v
theories/Properties_Extract.v
theories/S_Listing.v
theories/P_Accept.v
theories/P_List.v
theories/Properties_Listing.v
theories/M_Pm2hist.v
theories/S_Mtf.v
theories/P_Pm2hist.v
theories/Properties_Pm2.v
theories/S_Add.v
theories/P_AddFiles.v
theories/Properties_Add.v
theories/P_Select.v
theories/P_ExtractAll.v
theories/Properties_Select.v
theories/M_Dhuf.v
theories/M_Shuf.v
theories/M_Pm2.v
theories/M_Larc.v
theories/Properties_Stored.v
theories/P_Verify.v
theories/Properties_Damage.v
theories/Properties_Kinds.v
theories/M_Cli.v
theories/S_Cli.v
theories/P_Cli.v
theories/Properties_Cli.v
theories/P_CliAdd.v
theories/Properties_CliAdd.v
theories/S_Level0.v
theories/P_Level0.v
theories/P_AnyEntry.v
theories/S_AnyEntry.v
theories/Properties_Level0.v
theories/P_Generic.v
theories/Properties_Generic.v
theories/S_Text.v
theories/M_List.v
theories/S_ListText.v
theories/S_CliList.v
theories/P_Ratio.v
theories/P_Text.v
theories/Properties_Text.v
theories/P_Ends.v
theories/Properties_Ends.v
theories/M_Conc.v
theories/Properties_Conc.v
theories/S_Sfx.v
theories/Properties_Sfx.v
theories/S_Levels.v
theories/P_Plain.v
theories/P_Levels.v
theories/Properties_Levels.v
theories/Properties_Reuse.v
theories/P_Lost.v
theories/Properties_Lost.v
theories/Properties_Sources.v
theories/Properties_Method1.v
theories/S_Lh2.v
theories/P_Pool.v
theories/P_Dhuf2.v
theories/P_Lh2Tree.v
theories/P_Lh2.v
theories/P_Lh2Grow.v
theories/P_Lh2Run.v
theories/P_Lh2Dec.v
theories/Properties_Lh2.v
theories/M_Writer.v
theories/S_Writer.v
theories/P_Writer.v
theories/Properties_Writer.v
theories/Properties_Longer.v
theories/M_ConcEnc.v
theories/P_ConcEnc.v
theories/Properties_ConcEnc.v
theories/M_Full.v
theories/P_Full.v
theories/Properties_Full.v
theories/S_Systems.v
theories/Properties_Systems.v
theories/S_Names.v
theories/Properties_Names.v
theories/P_Move.v
theories/S_Move.v
theories/Properties_Move.v
theories/S_Owner.v
theories/Properties_Owner.v
theories/P_Dry.v
theories/Properties_Dry.v
theories/Properties_Backup.v
theories/P_Ignore.v
theories/Properties_Ignore.v
theories/P_Force.v
theories/Properties_Same.v
theories/M_String.v
theories/P_String.v
theories/Properties_String.v
theories/Properties_Malformed.v
theories/Properties_Describe.v
theories/P_KeepN1.v
theories/Properties_After2.v
theories/P_Itself.v
theories/Properties_Itself.v
theories/Properties_Apart.v
theories/Properties_Own.v
theories/Properties_Comma.v
theories/Properties_Deep.v
