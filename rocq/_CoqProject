-Q theories Verif
theories/Base/CInt.v
theories/Base/Finite.v
theories/Base/Lemmas.v
theories/Base/Loop.v
theories/Cdef/Block.v
theories/Cdef/Dir.v
theories/Cdef/Frame.v
theories/Cdef/Model.v
theories/Cdef/Pixel.v
theories/Cdef/Row.v
theories/Cdef/Spec.v
theories/Coef/Ctx.v
theories/Coef/Geo.v
theories/Coef/Model.v
theories/Coef/Prog.v
theories/Coef/Residual.v
theories/Coef/Spec.v
theories/Coef/Tokens.v
theories/Coef/Tokens2.v
theories/Coef/Top.v
theories/Coef/Types.v
theories/Dec/Again.v
theories/Dec/Agree.v
theories/Dec/Api.v
theories/Dec/Facts.v
theories/Dec/Fifo.v
theories/Dec/Front.v
theories/Dec/Inv.v
theories/Dec/Layers.v
theories/Dec/LibModel.v
theories/Dec/Meta.v
theories/Dec/MetaOnce.v
theories/Dec/Micro.v
theories/Dec/ObuModel.v
theories/Dec/OutSpec.v
theories/Dec/Parse.v
theories/Dec/Recover.v
theories/Dec/RecoverSpec.v
theories/Dec/Rejoin.v
theories/Dec/Runs.v
theories/Dec/Samples.v
theories/Dec/Sending.v
theories/Dec/Session.v
theories/Dec/State.v
theories/Dec/Step.v
theories/Dec/Stuck.v
theories/Dec/Submit.v
theories/Dec/SubmitProofs.v
theories/Dec/Tidy.v
theories/Dec/TileSteps.v
theories/Dec/Trace.v
theories/Dec/Wf.v
theories/GetBits/Abstract.v
theories/GetBits/AtPos.v
theories/GetBits/Model.v
theories/GetBits/Proofs.v
theories/GetBits/Reads.v
theories/GetBits/Sim.v
theories/GetBits/Spec.v
theories/GetBits/SpecProg.v
theories/GetBits/VarLen.v
theories/GetBits/VarLenProps.v
theories/Grain/Apply.v
theories/Grain/Arith.v
theories/Grain/Blocks.v
theories/Grain/Header.v
theories/Grain/Model.v
theories/Grain/Scaling.v
theories/Grain/Scaling2.v
theories/Grain/Spec.v
theories/Grain/Stripe.v
theories/Grain/Table.v
theories/Grain/Templates.v
theories/Grain/Templates2.v
theories/Ipred/Arrays.v
theories/Ipred/Cfl.v
theories/Ipred/Dir.v
theories/Ipred/Edge.v
theories/Ipred/Intra.v
theories/Ipred/Kernels.v
theories/Ipred/Model.v
theories/Ipred/Recur.v
theories/Ipred/Spec.v
theories/Ipred/Zone2.v
theories/Ipred/Zones.v
theories/Itx/Dc2d.v
theories/Itx/Equiv.v
theories/Itx/Interval.v
theories/Itx/Lang.v
theories/Itx/Main2d.v
theories/Itx/Proofs1d.v
theories/Itx/Proofs2d.v
theories/Itx/ScanProofs.v
theories/Itx/ScanTables.v
theories/Itx/Sim.v
theories/Itx/Spec1d.v
theories/Itx/Spec2d.v
theories/Itx/Sym.v
theories/Itx/Txfm1d.v
theories/Itx/Txfm2d.v
theories/Lf/Deblock.v
theories/Lf/Edge.v
theories/Lf/Frame.v
theories/Lf/Levels.v
theories/Lf/Line.v
theories/Lf/MaskBits.v
theories/Lf/MaskBlock.v
theories/Lf/MaskCreate.v
theories/Lf/MaskDecomp.v
theories/Lf/MaskInter.v
theories/Lf/MaskInterModel.v
theories/Lf/MaskInterSpec.v
theories/Lf/MaskModel.v
theories/Lf/MaskSpec.v
theories/Lf/MaskTile.v
theories/Lf/MaskTiles.v
theories/Lf/MaskTilesModel.v
theories/Lf/MaskWalk.v
theories/Lf/Model.v
theories/Lf/Sbrow.v
theories/Lf/Spec.v
theories/Lf/Strip.v
theories/Lib/Model.v
theories/Lib/Proofs.v
theories/Mc/Blocks.v
theories/Mc/Comb.v
theories/Mc/Compound.v
theories/Mc/Edge.v
theories/Mc/Funcs.v
theories/Mc/Interintra.v
theories/Mc/Kernel.v
theories/Mc/MaskInit.v
theories/Mc/MaskModel.v
theories/Mc/MaskProps.v
theories/Mc/MaskSpec.v
theories/Mc/MaskTables.v
theories/Mc/Masks.v
theories/Mc/Model.v
theories/Mc/Obmc.v
theories/Mc/ObmcFit.v
theories/Mc/ObmcModel.v
theories/Mc/ObmcSpec.v
theories/Mc/Spec.v
theories/Mc/Whole.v
theories/Mem/Pool.v
theories/Mem/PoolProofs.v
theories/Mem/Ref.v
theories/Mem/RefProofs.v
theories/Mem/Users.v
theories/Mem/UsersProofs.v
theories/Msac/Cdf.v
theories/Msac/Model.v
theories/Msac/Proofs.v
theories/Msac/Run.v
theories/Msac/Spec.v
theories/Msac/SpecRun.v
theories/Msac/Top.v
theories/Msac/Trailing.v
theories/Msac/Window.v
theories/Obu/FrameExamples.v
theories/Obu/FrameHist.v
theories/Obu/FrameKey.v
theories/Obu/FrameModel.v
theories/Obu/FramePre.v
theories/Obu/FrameRef2.v
theories/Obu/FrameRefs.v
theories/Obu/FrameRel.v
theories/Obu/FrameSec.v
theories/Obu/FrameSec2.v
theories/Obu/FrameSec3.v
theories/Obu/FrameSpec.v
theories/Obu/FrameTiles.v
theories/Obu/FrameTop.v
theories/Obu/ObuSpec.v
theories/Obu/SeqModel.v
theories/Obu/SeqProofs.v
theories/Obu/SeqRel.v
theories/Obu/SeqSpec.v
theories/Obu/SeqTop.v
theories/Obu/SimTac.v
theories/Props/C01.v
theories/Props/C02.v
theories/Props/C03.v
theories/Props/C04.v
theories/Props/C05.v
theories/Props/C06.v
theories/Props/C07.v
theories/Props/C08.v
theories/Props/C09.v
theories/Props/C10.v
theories/Props/C11.v
theories/Props/C12.v
theories/Props/C13.v
theories/Props/C14.v
theories/Props/C15.v
theories/Props/C16.v
theories/Props/C17.v
theories/Props/C18.v
theories/Props/C19.v
theories/Props/C20.v
theories/Props/C21.v
theories/Props/C22.v
theories/Props/C23.v
theories/Props/C24.v
theories/Props/C25.v
theories/Props/C26.v
theories/Props/C27.v
theories/Props/C28.v
theories/Props/C29.v
theories/Props/C30.v
theories/Props/C31.v
theories/Props/C32.v
theories/Props/C33.v
theories/Props/C34.v
theories/Props/C35.v
theories/Props/C36.v
theories/Props/C37.v
theories/Props/C38.v
theories/Props/C39.v
theories/Props/C40.v
theories/Props/C41.v
theories/Props/C42.v
theories/Props/C43.v
theories/Props/C44.v
theories/Props/C45.v
theories/Props/C46.v
theories/Props/C47.v
theories/Props/C48.v
theories/Props/C49.v
theories/Props/C50.v
theories/Props/C51.v
theories/Props/C52.v
theories/Props/C53.v
theories/Sched/Grain.v
theories/Sched/GrainProofs.v
theories/Sched/Progress.v
theories/Sched/ProgressProofs.v
theories/Sched/Queue.v
theories/Sched/QueueProofs.v
theories/Seg/Model.v
theories/Seg/Proofs.v
theories/Seg/Spec.v
theories/Tile/Bufs.v
theories/Tile/BufsProofs.v
theories/Tile/FrameOf.v
theories/Tile/SharesProofs.v
theories/Tile/Split.v
theories/Tile/SplitProofs.v
theories/Tile/SplitSpec.v
theories/Tools/AnnexbProofs.v
theories/Tools/Input.v
theories/Tools/InputProofs.v
theories/Tools/InputSpec.v
theories/Tools/IvfOpen.v
theories/Tools/IvfProofs.v
theories/Tools/Md5.v
theories/Tools/Md5Proofs.v
theories/Tools/Md5Rounds.v
theories/Tools/Md5Spec.v
theories/Tools/ProbeAll.v
theories/Tools/ProbeProofs.v
theories/Tools/ProbeSpec.v
theories/Tools/Section5Proofs.v
theories/Warp/Block.v
theories/Warp/BlockModel.v
theories/Warp/BlockSpec.v
theories/Warp/Choice.v
theories/Warp/Derive.v
theories/Warp/Final.v
theories/Warp/Find.v
theories/Warp/Masks.v
theories/Warp/Model.v
theories/Warp/Points.v
theories/Warp/Samples.v
theories/Warp/Select.v
theories/Warp/Shear.v
theories/Warp/Solve.v
theories/Warp/Spec.v
