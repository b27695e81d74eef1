-Q theories Verif
theories/Base.v
theories/Spec.v
theories/Model_Unicode.v
theories/Model_Diana.v
theories/Model_Table.v
theories/Model_Codec.v
theories/Model_Crand.v
theories/Model_Functions.v
theories/Model_Types.v
theories/Model_Cipher.v
theories/Model_Enrich.v
theories/Model_Keys.v
theories/Model_Import.v
theories/Model_Regex.v
theories/Model_Messages.v
theories/Model_Print.v
theories/Model_Station.v
theories/Model_Persist.v
theories/Model_Listing.v
theories/Model_Cli.v
theories/Model_Heap.v
theories/Spec_Messages.v
theories/Spec_Persist.v
theories/Spec_Heap.v
theories/Spec_Keys.v
theories/Spec_Cli.v
theories/Spec_Listing.v
theories/Spec_CliHist.v
theories/Spec_CliPfk.v
theories/Proofs_Diana.v
theories/Proofs_Codec.v
theories/Proofs_Keys.v
theories/Proofs_Encipher.v
theories/Proofs_Decipher.v
theories/Proofs_Read.v
theories/Proofs_Cipher.v
theories/Proofs_Enough.v
theories/Proofs_Cipher2.v
theories/Proofs_Functions.v
theories/Proofs_Crand.v
theories/Proofs_KeyOps.v
theories/Proofs_Uniform.v
theories/Proofs_Import.v
theories/Proofs_Summary.v
theories/Proofs_KeyProps.v
theories/Proofs_Regex.v
theories/Proofs_Radiogram.v
theories/Proofs_Traffic.v
theories/Proofs_Messages.v
theories/Proofs_MsgProps.v
theories/Proofs_Print.v
theories/Proofs_Station.v
theories/Proofs_Persist.v
theories/Proofs_Heap.v
theories/Proofs_Sharing.v
theories/Proofs_Shared.v
theories/Proofs_HeapOps.v
theories/Proofs_HeapText.v
theories/Proofs_HeapRun.v
theories/Proofs_HeapHist.v
theories/Proofs_HeapImport.v
theories/Proofs_HeapSep.v
theories/Proofs_HeapProps.v
theories/Proofs_Settings.v
theories/Proofs_Cli.v
theories/Proofs_CliRun.v
theories/Proofs_CliCmd.v
theories/Proofs_CliOps.v
theories/Proofs_CliMore.v
theories/Proofs_Listing.v
theories/Proofs_CliMsg.v
theories/Proofs_CliSel.v
theories/Proofs_CliPfk.v
theories/Proofs_CliHist.v
theories/Examples.v
theories/Examples_Persist.v
theories/Props_Diana.v
theories/Props_Cipher.v
theories/Proofs_Garble.v
theories/Props_Garble.v
theories/Spec_Order.v
theories/Proofs_Order.v
theories/Props_Order.v
theories/Props_Functions.v
theories/Props_Keys.v
theories/Props_Messages.v
theories/Props_Print.v
theories/Props_Persist.v
theories/Props_Heap.v
theories/Props_Settings.v
theories/Spec_CliImport.v
theories/Proofs_CliTop.v
theories/Spec_CliSeq.v
theories/Proofs_CliSeq.v
theories/Model_Concurrent.v
theories/Spec_Concurrent.v
theories/Proofs_Concurrent.v
theories/Proofs_Concurrent2.v
theories/Proofs_Concurrent3.v
theories/Props_Concurrent.v
theories/Model_Output.v
theories/Model_Initialize.v
theories/Spec_Initialize.v
theories/Spec_Output.v
theories/Proofs_Initialize.v
theories/Proofs_Output.v
theories/Model_Ask.v
theories/Spec_Ask.v
theories/Proofs_Ask.v
theories/Examples_Cli.v
theories/Spec_EndToEnd.v
theories/Proofs_EndToEnd.v
theories/Props_EndToEnd.v
theories/Props_Ask.v
theories/Props_Initialize.v
theories/Props_Output.v
theories/Props_Cli.v
theories/Props_CliMore.v
theories/Applied_Cli.v
theories/Applied_Store.v
theories/Applied_Files.v
theories/Applied_Traffic.v
theories/Applied_Secrecy.v
theories/Applied_Dialogue.v
theories/Applied_Rest.v
theories/Spec_Options.v
theories/Proofs_Options.v
theories/Props_Options.v
theories/Spec_Recipients.v
theories/Proofs_Recipients.v
theories/Props_Recipients.v
theories/Model_Pfk.v
theories/Spec_Pfk.v
theories/Proofs_Pfk.v
theories/Props_Pfk.v
theories/Spec_Forms.v
theories/Proofs_Forms.v
theories/Props_Forms.v
theories/Spec_Draws.v
theories/Proofs_Draws.v
theories/Props_Draws.v
theories/Spec_Dates.v
theories/Proofs_Dates.v
theories/Props_Secrecy.v
theories/Proofs_SecretGen.v
theories/Model_Crand2.v
theories/Spec_Crand.v
theories/Proofs_Fair.v
theories/Proofs_Crand2.v
theories/Proofs_Perm.v
theories/Props_Crand2.v
theories/Proofs_Fair2.v
theories/Props_Fair.v
theories/Spec_Joint.v
theories/Proofs_Joint.v
theories/Props_Joint.v
theories/Spec_Enough.v
theories/Proofs_Enough2.v
theories/Props_Enough.v
theories/Spec_Alike.v
theories/Proofs_Alike.v
theories/Props_Alike.v
theories/Props_Dates.v
theories/Spec_ImportOptions.v
theories/Spec_Secrecy.v
theories/Proofs_ImportOptions.v
theories/Proofs_Secrecy.v
theories/Proofs_Secrecy2.v
theories/Props_ImportOptions.v
theories/Model_Modes.v
theories/Spec_Modes.v
theories/Proofs_Modes.v
theories/Props_Modes.v
theories/Model_Body.v
theories/Spec_Body.v
theories/Proofs_Body.v
theories/Props_Body.v
theories/Model_Float.v
theories/Spec_Float.v
theories/Proofs_Float.v
theories/Props_Float.v
theories/Spec_Fresh.v
theories/Proofs_Fresh.v
theories/Props_Fresh.v
theories/Spec_Lookup.v
theories/Proofs_Lookup.v
theories/Props_Lookup.v
theories/Spec_Damaged.v
theories/Proofs_Damaged.v
theories/Props_Damaged.v
theories/Model_Wipes.v
theories/Proofs_Wipes.v
theories/Props_Wipes.v
theories/Spec_Again.v
theories/Proofs_Again.v
theories/Props_Again.v
theories/Props_Applied.v
theories/Props_Applied2.v
theories/Spec_Tables.v
theories/Proofs_Tables.v
theories/Props_Tables.v
theories/Model_Slices.v
theories/Spec_Slices.v
theories/Proofs_Slices.v
theories/Props_Slices.v
theories/Model_Handles.v
theories/Proofs_Handles.v
theories/Props_Handles.v
theories/Model_Pointers.v
theories/Spec_Pointers.v
theories/Proofs_Pointers.v
theories/Props_Pointers.v
theories/Model_Net.v
theories/Spec_Net.v
theories/Proofs_Net.v
theories/Props_Net.v
theories/Spec_NetSecret.v
theories/Proofs_NetSecret.v
theories/Props_NetSecret.v
theories/Proofs_NetSource.v
theories/Props_NetSource.v
theories/Proofs_Deleted.v
theories/Props_Deleted.v
theories/Proofs_DeleteOrder.v
theories/Props_DeleteOrder.v
theories/Model_Canvas.v
theories/Proofs_Canvas.v
theories/Props_Canvas.v
