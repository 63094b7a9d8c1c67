-Q theories Verif
theories/Base.v
theories/Spatial.v
theories/Codec.v
theories/Block.v
theories/MapProofs.v
theories/Spec.v
theories/SpecBlock.v
theories/CodecProofs.v
theories/CodecRound.v
theories/BlockProofs.v
theories/BlockUtils.v
theories/SpecNodes.v
theories/Sys.v
theories/Utils.v
theories/Cmd.v
theories/Commands.v
theories/Instance.v
theories/SpecRun.v
theories/SysProofs.v
theories/RunProofs.v
theories/ArgProofs.v
theories/ThreadProofs.v
theories/UtilsProofs.v
theories/SpecCmd.v
theories/SpecPick.v
theories/QueryProofs.v
theories/EditProofs.v
theories/BodyProofs.v
theories/NodeProofs.v
theories/MetaProofs.v
theories/ObjProofs.v
theories/InvProofs.v
theories/WholeProofs.v
theories/SpecSafe.v
theories/PanicProofs.v
theories/SafeProofs.v
theories/FaultProofs.v
theories/AtomicProofs.v
theories/ProgressProofs.v
theories/Toy.v
theories/ToyRun.v
theories/CmdFacts.v
theories/SafeFacts.v
theories/PropsSafe.v
theories/PropsCmd.v
theories/SpecFormat.v
theories/FormatProofs.v
theories/SpatialProofs.v
theories/PropsSpatial.v
theories/PropsCodec.v
theories/PropsNodes.v
theories/SpecStore.v
theories/StoreProofs.v
theories/Cli.v
theories/SpecCli.v
theories/CliProofs.v
theories/Fmt.v
theories/SpecFmt.v
theories/FmtProofs.v
theories/PropsIo.v
theories/SpecCopy.v
theories/MixProofs.v
theories/FragProofs.v
theories/CopyProofs.v
theories/CopyRun.v
theories/OverlayRun.v
theories/CopyFacts.v
theories/IdFacts.v
theories/PropsCopy.v
theories/Ui.v
theories/SpecUi.v
theories/TameProofs.v
theories/UiProofs.v
theories/PropsUi.v
theories/SpecExact.v
theories/ExactProofs.v
theories/PropsExact.v
theories/SpecOrder.v
theories/OrderProofs.v
theories/OrderFacts.v
theories/PropsOrder.v
theories/PropsKeep.v
theories/Text.v
theories/SpecText.v
theories/RoundProofs.v
theories/TextProofs.v
theories/EtaProofs.v
theories/DisplayProofs.v
theories/PropsText.v
theories/SpecKeep.v
theories/KeepProofs.v
theories/SpecCrash.v
theories/CrashProofs.v
theories/CrashRun.v
theories/CrashFacts.v
theories/PropsCrash.v
theories/SpecAgain.v
theories/AgainProofs.v
theories/AgainFacts.v
theories/PropsAgain.v
theories/SpecLocal.v
theories/LocalProofs.v
theories/LocalFacts.v
theories/PropsLocal.v
theories/SpecRestore.v
theories/RestoreProofs.v
theories/RestoreFacts.v
theories/PropsRestore.v
theories/SpecShow.v
theories/ShowTrace.v
theories/ShowProofs.v
theories/ShowFacts.v
theories/PropsShow.v
theories/SpecGone.v
theories/GoneProofs.v
theories/PropsGone.v
theories/Schema.v
theories/SpecRefuse.v
theories/SpecTable.v
theories/RefuseProofs.v
theories/TableProofs.v
theories/PropsRefuse.v
theories/SpecCong.v
theories/CongProofs.v
theories/CongFacts.v
theories/PropsCong.v
theories/SpecLaws.v
theories/LawProofs.v
theories/LawFacts.v
theories/PropsLaws.v
theories/SpecPair.v
theories/PairProofs.v
theories/PairFacts.v
theories/PropsPair.v
theories/PickFacts.v
theories/PropsPick.v
theories/SpecTell.v
theories/TellProofs.v
theories/LooseProofs.v
theories/LooseFacts.v
theories/SpecAdd.v
theories/AddProofs.v
theories/AddFacts.v
theories/PropsAdd.v
theories/SpecUndo.v
theories/UndoProofs.v
theories/UndoFacts.v
theories/PropsUndo.v
theories/FreeProofs.v
theories/FillFacts.v
theories/PropsFill.v
theories/DropProofs.v
theories/SpecSeq.v
theories/SeqProofs.v
theories/CutProofs.v
theories/CutFacts.v
theories/PropsCut.v
theories/EdgeProofs.v
theories/PropsEdge.v
