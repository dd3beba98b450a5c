-Q theories Verif
theories/CBase.v
theories/CBaseProofs.v
theories/VlcModel.v
theories/VlcSpec.v
theories/VlcProofs.v
theories/VlcProps.v
theories/BsModel.v
theories/BsSpec.v
theories/BsProofs.v
theories/BsProofs2.v
theories/BsProps.v
theories/OutModel.v
theories/OutSpec.v
theories/OutProofs.v
theories/OutProps.v
theories/PackModel.v
theories/PackProofs.v
theories/PackProps.v
theories/PackSpec.v
theories/HdrModel.v
theories/HdrProofs.v
theories/HdrProps.v
theories/HdrSpec.v
theories/QpModel.v
theories/QpProofs.v
theories/QpProps.v
theories/QpSpec.v
theories/MemModel.v
theories/MemProofs.v
theories/UtilModel.v
theories/UtilProofs.v
theories/UtilProps.v
theories/UtilSpec.v
theories/MvModel.v
theories/MvProofs.v
theories/MvProps.v
theories/MvSpec.v
theories/LfModel.v
theories/LfProofs.v
theories/LfProps.v
theories/LfSpec.v
theories/XlModel.v
theories/XlProofs.v
theories/XlProps.v
theories/XlSpec.v
theories/TpModel.v
theories/TpProofs.v
theories/TpProps.v
theories/TpSpec.v
theories/AecModel.v
theories/AecProofsA.v
theories/AecProofsB.v
theories/AecProofsC.v
theories/AecProofsD.v
theories/AecProofsE.v
theories/AecProofsF.v
theories/AecProofsG.v
theories/AecProofsH.v
theories/AecProps.v
theories/AecSpec.v
theories/SynModel.v
theories/SynProofsA.v
theories/SynProofsB.v
theories/SynProofsC.v
theories/SynProofsD.v
theories/SynProofsE.v
theories/SynProofsF.v
theories/SynProofsG.v
theories/SynProps.v
theories/SynSpec.v
theories/DpbModel.v
theories/DpbProofs.v
theories/DpbProofsB.v
theories/DpbProofsC.v
theories/DpbProofsD.v
theories/DpbProofsE.v
theories/DpbProps.v
theories/DpbSpec.v
theories/SaoModel.v
theories/SaoProofs.v
theories/SaoProofsB.v
theories/SaoProofsC.v
theories/SaoProofsD.v
theories/SaoProofsE.v
theories/SaoProps.v
theories/SaoSpec.v
theories/AlfModel.v
theories/AlfProofs.v
theories/AlfProofsB.v
theories/AlfProofsC.v
theories/AlfProofsD.v
theories/AlfProps.v
theories/AlfSpec.v
theories/FrmModel.v
theories/FrmProofs.v
theories/FrmProofsB.v
theories/FrmProofsC.v
theories/FrmProps.v
theories/FrmSpec.v
theories/McModel.v
theories/McProofs.v
theories/McProofsB.v
theories/McProps.v
theories/McSpec.v
theories/TrModel.v
theories/TrProofs.v
theories/TrProofsB.v
theories/TrProps.v
theories/TrSpec.v
theories/CuModel.v
theories/CuProofs.v
theories/CuProofsB.v
theories/CuProofsC.v
theories/CuProofsD.v
theories/CuProps.v
theories/CuSpec.v
theories/QtModel.v
theories/QtProofs.v
theories/QtProofsB.v
theories/QtProofsC.v
theories/QtProofsD.v
theories/QtProps.v
theories/QtSpec.v
theories/MemProofsB.v
theories/ImModel.v
theories/ImProofs.v
theories/ImProofsB.v
theories/ImProps.v
theories/ImSpec.v
theories/NbModel.v
theories/NbProofs.v
theories/NbProps.v
theories/NbSpec.v
theories/IprModel.v
theories/IprProofs.v
theories/IprProofsB.v
theories/IprProofsC.v
theories/IprProofsD.v
theories/IprProofsE.v
theories/IprProofsF.v
theories/IprProofsG.v
theories/IprProofsH.v
theories/IprProps.v
theories/IprSpec.v
theories/EgModel.v
theories/EgProofs.v
theories/EgProofsB.v
theories/EgProofsC.v
theories/EgProofsD.v
theories/EgProofsE.v
theories/EgProps.v
theories/EgSpec.v
theories/WvModel.v
theories/WvProofs.v
theories/WvProofsB.v
theories/WvProofsC.v
theories/WvProofsD.v
theories/WvProps.v
theories/WvSpec.v
theories/DbModel.v
theories/DbModelB.v
theories/DbProofs.v
theories/DbProofsB.v
theories/DbProofsC.v
theories/DbProofsD.v
theories/DbProofsE.v
theories/DbProofsF.v
theories/DbProps.v
theories/DbSpec.v
theories/DbSpecB.v
theories/MpModel.v
theories/MpProofs.v
theories/MpProofsB.v
theories/MpProofsC.v
theories/MpProofsD.v
theories/MpProofsE.v
theories/MpProofsF.v
theories/MpProofsG.v
theories/MpProofsH.v
theories/MpProofsI.v
theories/MpProofsJ.v
theories/MpProofsK.v
theories/MpProofsL.v
theories/MpProps.v
theories/MpSpec.v
theories/MpProofsM.v
theories/MpProofsN.v
theories/MpSpecB.v
theories/IprProofsI.v
theories/IprSpecB.v
theories/SlModel.v
theories/SlProofs.v
theories/SlProofsB.v
theories/SlProofsC.v
theories/SlProofsD.v
theories/SlProps.v
theories/SlSpec.v
theories/SlSpecB.v
theories/CodProofs.v
theories/CodProofsB.v
theories/CodProps.v
theories/CodSpec.v
theories/BinProofs.v
theories/BinProofsB.v
theories/BinProofsC.v
theories/BinProofsD.v
theories/BinProps.v
theories/BinSpec.v
theories/CofProofs.v
theories/CofProofsB.v
theories/CofProofsC.v
theories/CofProofsD.v
theories/CofProps.v
theories/CofSpec.v
theories/VxModel.v
theories/VxModelBase.v
theories/VxProofs.v
theories/VxProofsB.v
theories/VxProofsC.v
theories/VxProofsD.v
theories/VxProofsE.v
theories/VxProofsF.v
theories/VxProps.v
theories/VxSpec.v
theories/VdModel.v
theories/VdModelB.v
theories/VdProofs.v
theories/VdProofsB.v
theories/VdProofsC.v
theories/VdProofsD.v
theories/VdProofsE.v
theories/VdProofsF.v
theories/VdProps.v
theories/VdSpec.v
theories/ViModel.v
theories/ViProofs.v
theories/ViProofsB.v
theories/ViProofsC.v
theories/ViProofsD.v
theories/ViProps.v
theories/MvModelF.v
theories/MvProofsF.v
theories/MvPropsF.v
theories/MvSpecF.v
theories/DpbModelA.v
theories/DpbProofsF.v
theories/DpbPropsA.v
theories/OwnModel.v
theories/OwnProofs.v
theories/OwnProps.v
theories/OwnSpec.v
theories/UhModel.v
theories/UhProofs.v
theories/UhProps.v
theories/UhSpec.v
theories/VjModel.v
theories/VjProofs.v
theories/VjProofsB.v
theories/VjProofsC.v
theories/VjProofsD.v
theories/VjProofsE.v
theories/VjProps.v
theories/VtModel.v
theories/VtModelA.v
theories/VtModelB.v
theories/VtModelC.v
theories/VtModelD.v
theories/VtModelE.v
theories/VtModelF.v
theories/VtModelG.v
theories/VtProofs.v
theories/VtProofsB.v
theories/VtProofsC.v
theories/VtProofsD.v
theories/VtProofsE.v
theories/VtProofsF.v
theories/VtProofsG.v
theories/VtProps.v
theories/VtSpec.v
theories/VfModel.v
theories/VfProofs.v
theories/VfProofsB.v
theories/VfProps.v
theories/VpModel.v
theories/VpModelA.v
theories/VpModelB.v
theories/VpModelC.v
theories/VpModelD.v
theories/VpModelE.v
theories/VpModelF.v
theories/VpModelG.v
theories/VpModelH.v
theories/VpProofs.v
theories/VpProofsA.v
theories/VpProofsB.v
theories/VpProofsC.v
theories/VpProofsD.v
theories/VpProofsE.v
theories/VpProofsF.v
theories/VpProps.v
theories/VpSpec.v
theories/VqModel.v
theories/VqProofs.v
theories/VqProofsB.v
theories/VqProofsC.v
theories/VqProofsD.v
theories/VqProofsE.v
theories/VqProps.v
theories/VgModel.v
theories/VgProofs.v
theories/VgProps.v
theories/VgSpec.v
theories/MdModel.v
theories/MdProofs.v
theories/MdProofsB.v
theories/MdProps.v
theories/MdSpec.v
theories/ApModel.v
theories/ApProofs.v
theories/ApProofsB.v
theories/ApProps.v
theories/ApSpec.v
theories/CpModel.v
theories/CpProofs.v
theories/CpProofsB.v
theories/CpProps.v
theories/CpSpec.v
theories/FtModel.v
theories/FtProofs.v
theories/FtProps.v
theories/FtSpec.v
theories/XaModel.v
theories/XaProofs.v
theories/XaProofsB.v
theories/XaProps.v
theories/XaSpec.v
theories/MmModel.v
theories/MmProofs.v
theories/MmProps.v
theories/MmSpec.v
theories/DqModel.v
theories/DqProofs.v
theories/DqProps.v
theories/DqSpec.v
theories/HpModel.v
theories/HpProofs.v
theories/HpProps.v
theories/HpSpec.v
theories/BcModel.v
theories/BcProofs.v
theories/BcProps.v
theories/BcSpec.v
theories/XbModel.v
theories/XbProofs.v
theories/XbProps.v
theories/XbSpec.v
