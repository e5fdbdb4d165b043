-Q theories Verif
theories/Base.v
theories/BaseFacts.v
theories/InsnQModel.v
theories/InsnQSpec.v
theories/InsnQProofs.v
theories/InsnQLibProofs.v
theories/InsnQProps.v
theories/MsgQModel.v
theories/MsgQSpec.v
theories/MsgQProofs.v
theories/MsgQProps.v
theories/MetaModel.v
theories/MetaSpec.v
theories/MetaProofs.v
theories/MetaRobust.v
theories/MetaProps.v
theories/StrModel.v
theories/X86Model.v
theories/X86Spec.v
theories/X86Proofs.v
theories/X86Props.v
theories/DlModel.v
theories/LibModel.v
theories/LibSpec.v
theories/LibProofs.v
theories/LibInv.v
theories/LibMem.v
theories/LibExample.v
theories/LibMore.v
theories/SymProofs.v
theories/LibProps.v
theories/Lib2Props.v
theories/SymProps.v
theories/TextModel.v
theories/TextSpec.v
theories/TextProofs.v
theories/TextProps.v
theories/Md4Model.v
theories/Md4Spec.v
theories/Md4Proofs.v
theories/Md4Props.v
theories/LockModel.v
theories/LockSpec.v
theories/LockProofs.v
theories/LockProps.v
theories/PcModel.v
theories/PcSpec.v
theories/PcProofs.v
theories/PcProps.v
theories/OptModel.v
theories/OptSpec.v
theories/OptProofs.v
theories/OptProps.v
theories/PtModel.v
theories/PtSpec.v
theories/PtProofs.v
theories/PtProps.v
theories/HjModel.v
theories/HjSpec.v
theories/HjProofs.v
theories/HjProps.v
theories/TrModel.v
theories/TrSpec.v
theories/TrProofs.v
theories/TrProps.v
theories/NtModel.v
theories/NtSpec.v
theories/NtProofs.v
theories/NtProps.v
theories/PostModel.v
theories/PostSpec.v
theories/PostProofs.v
theories/PostProps.v
theories/CycSpec.v
theories/CycProofs.v
theories/CycProps.v
theories/DscModel.v
theories/DscSpec.v
theories/DscProofs.v
theories/DscProps.v
theories/PpcModel.v
theories/PpcSpec.v
theories/PpcProofs.v
theories/PpcProps.v
theories/PtrModel.v
theories/PtrSpec.v
theories/PtrProofs.v
theories/PtrProps.v
theories/IntrModel.v
theories/IntrSpec.v
theories/IntrProofs.v
theories/Intr2Proofs.v
theories/Intr3Proofs.v
theories/Intr4Proofs.v
theories/IntrEx.v
theories/IntrProps.v
theories/CmdModel.v
theories/CmdSpec.v
theories/CmdProofs.v
theories/CmdProps.v
theories/ElfModel.v
theories/ElfSpec.v
theories/ElfProofs.v
theories/ElfProps.v
theories/MapModel.v
theories/MapSpec.v
theories/MapProofs.v
theories/MapProps.v
theories/EndSpec.v
theories/EndProps.v
theories/RetryModel.v
theories/RetrySpec.v
theories/RetryProofs.v
theories/RetryProps.v
theories/CliModel.v
theories/CliSpec.v
theories/CliProofs.v
theories/CliProps.v
theories/PrivModel.v
theories/PrivSpec.v
theories/PrivProps.v
theories/MsgsModel.v
theories/MsgsSpec.v
theories/MsgsProofs.v
theories/MsgsProps.v
theories/PackModel.v
theories/PackSpec.v
theories/PackProofs.v
theories/PackProps.v
theories/ExtModel.v
theories/ExtSpec.v
theories/ExtProofs.v
theories/ExtProps.v
theories/LogModel.v
theories/LogSpec.v
theories/LogProofs.v
theories/LogProps.v
theories/PatModel.v
theories/PatSpec.v
theories/PatProofs.v
theories/PatProps.v
theories/ItpModel.v
theories/ItpSpec.v
theories/ItpProofs.v
theories/ItpProps.v
theories/HeapModel.v
theories/HeapSpec.v
theories/HeapProofs.v
theories/HeapProps.v
theories/SigModel.v
theories/SigSpec.v
theories/SigProofs.v
theories/SigProps.v
theories/KillModel.v
theories/KillSpec.v
theories/KillProofs.v
theories/KillProps.v
theories/ReplModel.v
theories/ReplSpec.v
theories/ReplProofs.v
theories/ReplProps.v
theories/WinSpec.v
theories/WinProofs.v
theories/WinProps.v
theories/SymEndProps.v
theories/VerModel.v
theories/VerSpec.v
theories/VerProofs.v
theories/VerProps.v
theories/OwnModel.v
theories/OwnSpec.v
theories/OwnProofs.v
theories/Own2Proofs.v
theories/OwnProps.v
theories/TwoModel.v
theories/TwoSpec.v
theories/TwoProofs.v
theories/TwoProps.v
theories/TmdModel.v
theories/TmdSpec.v
theories/TmdProofs.v
theories/TmdProps.v
theories/DirModel.v
theories/DirSpec.v
theories/DirProofs.v
theories/DirProps.v
theories/LocModel.v
theories/LocSpec.v
theories/LocProofs.v
theories/LocProps.v
theories/PwinModel.v
theories/PwinSpec.v
theories/PwinProofs.v
theories/PwinProps.v
theories/PstModel.v
theories/PstSpec.v
theories/PstProofs.v
theories/PstProps.v
theories/BltModel.v
theories/BltSpec.v
theories/BltProofs.v
theories/BltProps.v
theories/SeeModel.v
theories/SeeSpec.v
theories/SeeProofs.v
theories/SeeEx.v
theories/SeeProps.v
theories/VstrSpec.v
theories/VstrProps.v
theories/CmtModel.v
theories/CmtSpec.v
theories/CmtProofs.v
theories/CmtProps.v
theories/PlpModel.v
theories/PlpProps.v
theories/TimModel.v
theories/TimSpec.v
theories/TimProps.v
theories/UnlSpec.v
theories/UnlProofs.v
theories/UnlProps.v
theories/FrkModel.v
theories/FrkSpec.v
theories/FrkProps.v
theories/CodeProps.v
theories/PrtModel.v
theories/PrtSpec.v
theories/PrtProofs.v
theories/PrtProps.v
theories/SecModel.v
theories/SecSpec.v
theories/SecProofs.v
theories/SecProps.v
theories/ColModel.v
theories/ColSpec.v
theories/ColProofs.v
theories/ColProps.v
