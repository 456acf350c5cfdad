-Q theories Verif
theories/AddrSpaceModel.v
theories/AddrSpaceSpec.v
theories/AddrSpaceProofs.v
theories/RegionApiProofs.v
theories/AddrSpaceProps.v
theories/RegionApiProps.v
theories/HostModel.v
theories/AluModel.v
theories/AluSpec.v
theories/HostProofs.v
theories/LazyFlagsProofs.v
theories/FlagsApiProofs.v
theories/FlagArith.v
theories/SymExec.v
theories/EaProofs.v
theories/AluProofs.v
theories/AluForms.v
theories/UnaryProofs.v
theories/XchgProofs.v
theories/CondProofs.v
theories/FlagInstrProofs.v
theories/LahfProofs.v
theories/AluProps.v
theories/StackModel.v
theories/StackSpec.v
theories/StackProofs.v
theories/StackProofs2.v
theories/StackProofs3.v
theories/StackProps.v
theories/MmuModel.v
theories/MmuSpec.v
theories/MmuProofs.v
theories/TlbProofs.v
theories/TlbInv.v
theories/TlbHist.v
theories/TlbRun.v
theories/TlbUniq.v
theories/MmuProps.v
theories/DivModel.v
theories/DivProps.v
theories/SegModel.v
theories/SegSpec.v
theories/SegBits.v
theories/SegProofs.v
theories/SegFar.v
theories/SegRet.v
theories/SegCall.v
theories/SegProps.v
theories/ExcSpec.v
theories/ExcProofs.v
theories/ExcEsc.v
theories/ExcDel.v
theories/ExcProps.v
theories/ModeSpec.v
theories/ModeProofs.v
theories/ModeModel.v
theories/ModeSteps.v
theories/ModeProps.v
theories/CrTlbProps.v
theories/FpuModel.v
theories/FpuSpec.v
theories/FpuProofs.v
theories/FpuProps.v
theories/FpuProps2.v
theories/FpuProps3.v
theories/FpuProps4.v
theories/FxModel.v
theories/FxProps.v
theories/MsrModel.v
theories/MsrProps.v
theories/DrModel.v
theories/DrProps.v
theories/IoPrivModel.v
theories/IoPrivProps.v
theories/ClockModel.v
theories/ClockProps.v
theories/AllocModel.v
theories/AllocProps.v
theories/CodeModel.v
theories/CodeProofs.v
theories/CodeProps.v
theories/HookModel.v
theories/HookProps.v
theories/A20Model.v
theories/A20Spec.v
theories/A20Proofs.v
theories/A20Props.v
theories/SnapModel.v
theories/SnapProps.v
theories/IrqModel.v
theories/IrqProps.v
theories/SuspModel.v
theories/SuspProps.v
theories/BlockModel.v
theories/BlockSpec.v
theories/BlockProofs.v
theories/BlockProps.v
theories/ShiftModel.v
theories/ShiftSpec.v
theories/ShiftProofs.v
theories/ShiftForms.v
theories/RotateProofs.v
theories/BitProofs.v
theories/MulProofs.v
theories/BcdProofs.v
theories/BranchProofs.v
theories/ShiftProps.v
theories/StringModel.v
theories/StringSpec.v
theories/StringProofs.v
theories/StringRep.v
theories/StringForms.v
theories/StringProps.v
theories/SuspControl.v
theories/FarSpec.v
theories/FarProofs.v
theories/FarProps.v
theories/CrProps.v
theories/SysProps.v
theories/VerFlags.v
theories/MoveModel.v
theories/MoveSpec.v
theories/MoveProofs.v
theories/MoveProofs2.v
theories/MoveProofs3.v
theories/MoveProofs4.v
theories/MoveRound.v
theories/EnterProofs.v
theories/ArplProofs.v
theories/MoveProps.v
theories/RunModel.v
theories/RunProps.v
theories/PortModel.v
theories/PortSpec.v
theories/PortProofs.v
theories/PortProps.v
theories/SseModel.v
theories/SseSpec.v
theories/SseArith.v
theories/SseProofs.v
theories/SseProofs2.v
theories/SseProofs3.v
theories/SseProps.v
theories/SysModel.v
theories/SysSpec.v
theories/SysProofs.v
theories/SysEmProps.v
theories/IntModel.v
theories/IntProps.v
theories/IntRound.v
theories/DbgModel.v
theories/DbgSpec.v
theories/DbgProofs.v
theories/DbgProps.v
theories/FetchModel.v
theories/FetchSpec.v
theories/FetchProofs.v
theories/FetchProps.v
theories/HfModel.v
theories/HfSpec.v
theories/HfProofs.v
theories/HfProps.v
theories/DtModel.v
theories/DtSpec.v
theories/DtProofs.v
theories/DtProps.v
theories/RgModel.v
theories/RgSpec.v
theories/RgProofs.v
theories/RgProps.v
theories/AccModel.v
theories/AccSpec.v
theories/AccProofs.v
theories/AccProps.v
theories/CtxModel.v
theories/CtxSpec.v
theories/CtxProofs.v
theories/CtxProps.v
theories/RamModel.v
theories/RamSpec.v
theories/RamProps.v
theories/PtrModel.v
theories/PtrProps.v
theories/RomModel.v
theories/RomProps.v
theories/SetModel.v
theories/SetSpec.v
theories/SetProps.v
theories/IdModel.v
theories/IdProps.v
