-Q theories Verif
theories/Base.v
theories/ListModel.v
theories/ListSpec.v
theories/ListProofs.v
theories/ListProps.v
theories/SortedModel.v
theories/SortedSpec.v
theories/SortedProofs.v
theories/SortedProps.v
theories/DecModel.v
theories/DecSpec.v
theories/DecProofs.v
theories/DecProps.v
theories/MemModel.v
theories/MemSpec.v
theories/MemProofs.v
theories/MemProps.v
theories/BandModel.v
theories/BandProps.v
theories/BankModel.v
theories/BankProps.v
theories/HexModel.v
theories/HexSpec.v
theories/HexProofs.v
theories/HexProofs2.v
theories/HexProps.v
theories/SearchModel.v
theories/SearchProps.v
theories/HistModel.v
theories/HistSpec.v
theories/HistProofs.v
theories/HistProps.v
theories/BrkModel.v
theories/BrkSpec.v
theories/BrkProofs.v
theories/BrkProofs2.v
theories/BrkProps.v
theories/OpsModel.v
theories/OpsProps.v
theories/IrqModel.v
theories/IrqSpec.v
theories/IrqProofs.v
theories/IrqProps.v
theories/TickModel.v
theories/TickSpec.v
theories/TickProofs.v
theories/TickProps.v
theories/RunModel.v
theories/RunProps.v
theories/VarModel.v
theories/VarSpec.v
theories/VarProofs.v
theories/VarProofs2.v
theories/VarProps.v
theories/S51Model.v
theories/S51Spec.v
theories/S51Obs.v
theories/S51DisModel.v
theories/S51Proofs.v
theories/S51Proofs2.v
theories/S51Proofs3.v
theories/S51Proofs4.v
theories/S51Proofs5.v
theories/S51Proofs6.v
theories/S51Proofs7.v
theories/S51Proofs8.v
theories/S51Proofs9.v
theories/S51Props.v
theories/S51IrqModel.v
theories/S51IrqProofs.v
theories/S51IrqProofs2.v
theories/S51IrqProps.v
theories/M65Model.v
theories/M65DisModel.v
theories/M65Spec.v
theories/M65Obs.v
theories/M65Proofs.v
theories/M65Proofs2.v
theories/M65Proofs3.v
theories/M65Proofs4.v
theories/M65Proofs5.v
theories/M65Proofs6.v
theories/M65Proofs7.v
theories/M65Props.v
theories/FioModel.v
theories/FioSpec.v
theories/FioObs.v
theories/FioProofs.v
theories/FioProofs2.v
theories/FioProofs3.v
theories/FioProofs4.v
theories/FioProofs5.v
theories/FioProofs6.v
theories/FioProps.v
theories/ChrModel.v
theories/ChrSpec.v
theories/ChrObs.v
theories/ChrProofs.v
theories/ChrProofs2.v
theories/ChrProps.v
theories/ExprTab.v
theories/ExprModel.v
theories/ExprSpec.v
theories/ExprProofs.v
theories/ExprProofs2.v
theories/ExprProofs3.v
theories/ExprEqs.v
theories/ExprProofs4.v
theories/ExprProofs5.v
theories/ExprText.v
theories/ExprLex.v
theories/ExprProofs6.v
theories/ExprObs.v
theories/ExprProps.v
theories/TmrModel.v
theories/TmrSpec.v
theories/TmrObs.v
theories/TmrProofs.v
theories/TmrProofs2.v
theories/TmrProofs3.v
theories/TmrProofs4.v
theories/TmrProps.v
theories/Tm2Model.v
theories/Tm2Spec.v
theories/Tm2Proofs.v
theories/Tm2Proofs2.v
theories/Tm2Proofs3.v
theories/Tm2Proofs4.v
theories/Tm2Proofs5.v
theories/Tm2Props.v
theories/SerModel.v
theories/SerSpec.v
theories/SerProofs.v
theories/SerProofs2.v
theories/SerProofs3.v
theories/SerProofs4.v
theories/SerProofs5.v
theories/SerProofs6.v
theories/SerProofs7.v
theories/SerProps.v
theories/WdtModel.v
theories/WdtProps.v
theories/CmdModel.v
theories/CmdSpec.v
theories/CmdProofs.v
theories/CmdProofs2.v
theories/CmdProofs3.v
theories/CmdProofs4.v
theories/CmdProofs5.v
theories/CmdProofs6.v
theories/CmdProps.v
theories/I80Model.v
theories/I80Spec.v
theories/I80Spec2.v
theories/I80Proofs.v
theories/I80Proofs2.v
theories/I80Proofs3.v
theories/I80Proofs4.v
theories/I80Proofs5.v
theories/I80Proofs6.v
theories/I80Proofs7.v
theories/I80Proofs8.v
theories/I80Proofs9.v
theories/I80Proofs10.v
theories/I80Proofs11.v
theories/I80Proofs12.v
theories/I80Proofs13.v
theories/I80Proofs14.v
theories/I80Proofs15.v
theories/I80Props.v
theories/Z80Model.v
theories/Z80Spec.v
theories/Z80Proofs.v
theories/Z80Proofs2.v
theories/Z80Proofs3.v
theories/Z80Proofs4.v
theories/Z80Proofs5.v
theories/Z80Proofs6.v
theories/Z80Proofs7.v
theories/Z80Proofs8.v
theories/Z80Proofs9.v
theories/Z80Proofs10.v
theories/Z80Proofs11.v
theories/Z80Proofs12.v
theories/Z80Proofs13.v
theories/Z80Proofs14.v
theories/Z80Proofs15.v
theories/Z80Proofs16.v
theories/Z80Props.v
theories/Z80Spec2.v
theories/Z80Proofs17.v
theories/Z80Proofs18.v
theories/Z80Proofs19.v
theories/Z80Proofs20.v
theories/Z80Proofs21.v
theories/Z80Proofs22.v
theories/Z80Props2.v
theories/SifModel.v
theories/SifSpec.v
theories/SifProofs.v
theories/SifProps.v
theories/M48Model.v
theories/M48Spec.v
theories/M48Proofs.v
theories/M48Proofs2.v
theories/M48Proofs3.v
theories/M48Proofs4.v
theories/M48Proofs5.v
theories/M48Proofs6.v
theories/M48Proofs7.v
theories/M48Proofs8.v
theories/M48Proofs9.v
theories/M48Proofs10.v
theories/M48Props.v
theories/OiscModel.v
theories/OiscSpec.v
theories/OiscProofs.v
theories/OiscProofs2.v
theories/OiscProofs3.v
theories/OiscProps.v
theories/PcaModel.v
theories/PcaSpec.v
theories/PcaProofs.v
theories/PcaProps.v
