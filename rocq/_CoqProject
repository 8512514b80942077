-Q theories Verif
theories/Base.v
theories/VmModel.v
theories/VmSpec.v
theories/VmProofs.v
theories/VmStep.v
theories/VmRun.v
theories/VmHook.v
theories/VmModes.v
theories/VmAddr.v
theories/VmInv.v
theories/VmWorld.v
theories/SystemModel.v
theories/SystemSpec.v
theories/SystemProofs.v
theories/InputModel.v
theories/InputSpec.v
theories/InputProofs.v
theories/MetaModel.v
theories/MetaSpec.v
theories/MetaProofs.v
theories/FileModel.v
theories/FileSpec.v
theories/FileProofs.v
theories/FileDevice.v
theories/AudioModel.v
theories/AudioSpec.v
theories/AudioProofs.v
theories/HandoverModel.v
theories/HandoverSpec.v
theories/HandoverProofs.v
theories/ScreenModel.v
theories/ScreenSpec.v
theories/ScreenProofs.v
theories/ScreenHistory.v
theories/DbgModel.v
theories/DbgSpec.v
theories/DbgProofs.v
theories/DbgHits.v
theories/DbgSteps.v
theories/DbgRun.v
theories/ProtoModel.v
theories/ProtoSpec.v
theories/ProtoProofs.v
theories/ProtoInput.v
theories/ProtoWire.v
theories/SymtabModel.v
theories/SymtabSpec.v
theories/SymtabProofs.v
theories/HamtModel.v
theories/HamtProofs.v
theories/AsmModel.v
theories/AsmSound.v
theories/AsmScan.v
theories/AsmRun.v
theories/AsmSpec.v
theories/AsmWords.v
theories/AsmLink.v
theories/AsmSim.v
theories/AsmRefs.v
theories/AsmToken.v
theories/AsmStep.v
theories/AsmProg.v
theories/AsmFacts.v
theories/AsmText.v
theories/AsmAccept.v
theories/AsmFlat.v
theories/AsmAddr.v
theories/Props_Asm.v
theories/Props_AsmVm.v
theories/Props_AsmText.v
theories/AnnoModel.v
theories/Props_Anno.v
theories/Props_VM.v
theories/Props_System.v
theories/Props_Input.v
theories/Props_File.v
theories/Props_Audio.v
theories/Props_Screen.v
theories/Props_Dbg.v
theories/Props_Proto.v
theories/Props_Symtab.v
theories/Props_Hamt.v
theories/BootModel.v
theories/BootProofs.v
theories/Props_Boot.v
theories/FrontModel.v
theories/Props_Front.v
theories/ChessModel.v
theories/ChessProofs.v
theories/ChessSize.v
theories/ChessDelta.v
theories/ChessJump.v
theories/ChessVm.v
theories/ChessReports.v
theories/Props_Chess.v
theories/TransportModel.v
theories/Props_Transport.v
theories/RomvizModel.v
theories/Props_Romviz.v
theories/AsmCover.v
theories/Props_Symbols.v
theories/CliModel.v
theories/CliSpec.v
theories/CliProofs.v
theories/Props_Cli.v
theories/PlaceSpec.v
theories/AsmPlace.v
theories/AsmNames.v
theories/Props_Place.v
theories/CtagsModel.v
theories/Props_Ctags.v
theories/BindgenModel.v
theories/Props_Bindgen.v
theories/AsmComments.v
theories/Props_Comments.v
theories/GuiModel.v
theories/GuiSpec.v
theories/GuiProofs.v
theories/Props_Ports.v
theories/Props_Gui.v
theories/Props_GuiScreen.v
theories/Props_Start.v
theories/ValueSpec.v
theories/ChessValue.v
theories/ChessLock.v
theories/ChessSim.v
theories/ChessPool.v
theories/ChessStep.v
theories/ChessCast.v
theories/Props_ChessValue.v
theories/SigSpec.v
theories/ChessRead.v
theories/Props_ChessRead.v
theories/ChessClean.v
theories/ChessGo.v
theories/SoundSpec.v
theories/ChessRun.v
theories/Props_ChessSound.v
theories/TypeSpec.v
theories/ChessTypes.v
theories/Props_ChessTypes.v
theories/HeaderSpec.v
theories/HeaderProofs.v
theories/Props_Header.v
theories/ReplModel.v
theories/ReplSpec.v
theories/Props_Repl.v
theories/Props_Reads.v
theories/PhysfsModel.v
theories/PhysfsSpec.v
theories/Props_Physfs.v
theories/Props_Names.v
theories/IntegModel.v
theories/Props_Integ.v
theories/PlatformModel.v
theories/Props_Platform.v
theories/BufModel.v
theories/Props_Buf.v
theories/HashModel.v
theories/Props_Hash.v
theories/UnusedSpec.v
theories/AsmUnused.v
theories/Props_Unused.v
theories/ExcerptModel.v
theories/ExcerptSpec.v
theories/Props_Excerpt.v
theories/MainModel.v
theories/MainSpec.v
theories/Props_Main.v
theories/ExeModel.v
theories/Props_Exe.v
theories/Props_Made.v
theories/SymViewModel.v
theories/Props_SymView.v
theories/VfsModel.v
theories/Props_Vfs.v
theories/ReplLogModel.v
theories/Props_ReplLog.v
theories/WindowModel.v
theories/Props_Window.v
theories/PaceModel.v
theories/Props_Pace.v
