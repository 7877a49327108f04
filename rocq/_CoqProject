-Q theories Verif
theories/Prelude.v
theories/P_Prelude.v
theories/M_ByteHandler.v
theories/M_Vector2D.v
theories/M_BitMatrix.v
theories/P_ByteHandler.v
theories/Props_ByteHandler.v
theories/S_Matrix.v
theories/P_BitMatrix.v
theories/P_Cells.v
theories/P_Serial.v
theories/S_History.v
theories/P_History.v
theories/P_Vector2D.v
theories/Props_BitMatrix.v
theories/M_Crc32.v
theories/S_Crc32.v
theories/P_Crc32.v
theories/M_Base64.v
theories/S_Base64.v
theories/P_Base64.v
theories/Props_Base64.v
theories/M_LayoutCore.v
theories/M_Rle.v
theories/S_Rle.v
theories/P_Rle.v
theories/Props_Rle.v
theories/M_Hash.v
theories/S_Hash.v
theories/P_Hash.v
theories/Props_Hash.v
theories/M_Double.v
theories/S_Double.v
theories/M_Ratio.v
theories/S_Ratio.v
theories/P_Double.v
theories/P_Ratio.v
theories/Props_Ratio.v
theories/M_LayoutData.v
theories/M_Loop.v
theories/M_Zond.v
theories/P_Loop.v
theories/S_Zond.v
theories/P_Zond.v
theories/P_Round.v
theories/P_ZondReal.v
theories/P_ZondCells.v
theories/Props_Zond.v
theories/M_Converter.v
theories/S_Converter.v
theories/P_Converter.v
theories/P_Split.v
theories/Props_Converter.v
theories/M_Print.v
theories/M_Generator.v
theories/S_Generator.v
theories/P_Uniform.v
theories/P_Generator.v
theories/Props_Generator.v
theories/S_EndToEnd.v
theories/P_EndToEnd.v
theories/Props_EndToEnd.v
theories/M_Scanf.v
theories/M_Msk.v
theories/S_Msk.v
theories/P_Scanf.v
theories/P_Msk.v
theories/P_MskFile.v
theories/P_MskFatal.v
theories/P_MskRead.v
theories/Props_Msk.v
theories/M_GdsiiHelpers.v
theories/S_Gdsii.v
theories/P_GdsiiInt.v
theories/P_GdsiiReal.v
theories/P_GdsiiWrite.v
theories/Props_GdsiiNumbers.v
theories/M_Gdsii.v
theories/P_GdsiiLoop.v
theories/S_GdsiiFile.v
theories/P_GdsiiFile.v
theories/P_GdsiiPost.v
theories/P_GdsiiRead.v
theories/P_GdsiiShow.v
theories/Props_Gdsii.v
theories/S_MskNames.v
theories/P_MskNames.v
theories/Props_MskNames.v
theories/S_MskBitmap.v
theories/Props_MskBitmap.v
theories/S_Identify.v
theories/P_Identify.v
theories/Props_Identify.v
theories/S_Print.v
theories/P_Print.v
theories/Props_Print.v
theories/S_Fragment.v
theories/Props_Fragment.v
theories/S_ZondOffset.v
theories/P_ZondOffset.v
theories/Props_ZondOffset.v
theories/M_Printer.v
theories/S_Printer.v
theories/P_Printer.v
theories/Props_Printer.v
theories/S_Blank.v
theories/Props_Blank.v
theories/M_Ownership.v
theories/S_Ownership.v
theories/P_Ownership.v
theories/P_OwnerRead.v
theories/P_OwnerSim.v
theories/Props_Ownership.v
theories/M_Partition.v
theories/S_Partition.v
theories/P_Partition.v
theories/P_PartEdge.v
theories/Props_Partition.v
theories/S_Flips.v
theories/P_Flips.v
theories/P_FlipsText.v
theories/Props_Flips.v
theories/S_Degrade.v
theories/P_Degrade.v
theories/Props_Degrade.v
theories/Props_Stored.v
theories/S_Exact.v
theories/P_Exact.v
theories/Props_Exact.v
theories/P_Rank.v
theories/Props_Rank.v
theories/S_Grow.v
theories/Props_Grow.v
theories/S_Area.v
theories/Props_Area.v
theories/S_Turn.v
theories/P_Turn.v
theories/Props_Turn.v
theories/M_Shared.v
theories/S_Shared.v
theories/P_Shared.v
theories/Props_Shared.v
theories/Props_Moved.v
theories/S_HashAccept.v
theories/P_HashAccept.v
theories/Props_HashAccept.v
theories/S_RleExact.v
theories/P_RleExact.v
theories/Props_RleExact.v
theories/M_Reserve.v
theories/Props_Reserve.v
theories/S_Metric.v
theories/Props_Metric.v
theories/P_Forge.v
theories/Props_Forge.v
theories/Props_Concat.v
theories/S_Cut.v
theories/P_Cut.v
theories/Props_Cut.v
theories/S_Library.v
theories/Props_Library.v
theories/S_GdsiiCut.v
theories/P_GdsiiCut.v
theories/Props_GdsiiCut.v
theories/S_Resolution.v
theories/Props_Resolution.v
theories/S_Wobble.v
theories/Props_Wobble.v
theories/S_ZondUse.v
theories/Props_ZondUse.v
theories/Props_Noise.v
theories/S_Nudge.v
theories/Props_Nudge.v
theories/Props_Recognise.v
theories/S_Mirror.v
theories/Props_Mirror.v
theories/M_Copying.v
theories/S_Copying.v
theories/Props_Copying.v
theories/S_Damage.v
theories/Props_Damage.v
theories/S_Crop.v
theories/Props_Crop.v
theories/S_Mixed.v
theories/Props_Mixed.v
theories/S_NotANumber.v
theories/Props_NotANumber.v
