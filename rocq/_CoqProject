-Q theories Verif
theories/Base/Outcome.v
theories/Base/Bits.v
theories/Xlat/Tables.v
theories/Xlat/Props.v
theories/Card/Tables.v
theories/Card/Model.v
theories/Card/Spec.v
theories/Card/Proofs.v
theories/Card/Proofs2.v
theories/Card/Props.v
theories/Event/Model.v
theories/Event/Spec.v
theories/Event/Proofs.v
theories/Event/Facts.v
theories/Event/Facts2.v
theories/Event/Props.v
theories/Tape/Model.v
theories/Tape/Spec.v
theories/Tape/Window.v
theories/Tape/Safety.v
theories/Tape/Records.v
theories/Tape/Tap.v
theories/Tape/P7b.v
theories/Tape/Ends.v
theories/Tape/Props.v
theories/Dasd/Model.v
theories/Dasd/Spec.v
theories/Dasd/Read.v
theories/Dasd/Safe.v
theories/Dasd/Safe2.v
theories/Dasd/Safe3.v
theories/Dasd/Frame.v
theories/Dasd/Format.v
theories/Dasd/Attach.v
theories/Dasd/Run.v
theories/Dasd/Write.v
theories/Dasd/Record.v
theories/Dasd/Props.v
theories/Device/Model.v
theories/Device/Spec.v
theories/Device/Proofs.v
theories/Device/Props.v
theories/Conf/Model.v
theories/Conf/Spec.v
theories/Conf/Proofs.v
theories/Conf/Props.v
theories/Conf/Load.v
theories/Conf/LoadSpec.v
theories/Conf/LoadProofs.v
theories/Conf/LoadProps.v
theories/Chan/Bus.v
theories/R1442/Model.v
theories/R1442/Spec.v
theories/R1442/Proofs.v
theories/R1442/Proofs2.v
theories/R1442/Proofs3.v
theories/R1442/Proofs4.v
theories/R1442/Props.v
theories/R1442/Spec2.v
theories/R1442/Proofs5.v
theories/R1442/Proofs6.v
theories/R1442/Proofs7.v
theories/R1442/Props2.v
theories/R1442/Spec3.v
theories/R1442/Proofs8.v
theories/R1442/Props3.v
theories/T2415/Model.v
theories/T2415/Spec.v
theories/T2415/Proofs.v
theories/T2415/Proofs2.v
theories/T2415/Proofs3.v
theories/T2415/Proofs4.v
theories/T2415/Proofs5.v
theories/T2415/Proofs6.v
theories/T2415/Proofs7.v
theories/T2415/Props.v
theories/T2415/Proofs8.v
theories/T2415/Props2.v
theories/M2030/Model.v
theories/M2030/Spec.v
theories/M2030/Proofs.v
theories/M2030/Proofs2.v
theories/M2030/Proofs3.v
theories/M2030/Proofs4.v
theories/M2030/Proofs5.v
theories/M2030/Proofs6.v
theories/M2030/Proofs7.v
theories/M2030/Proofs8.v
theories/M2030/Props.v
theories/P1443/Model.v
theories/P1443/Spec.v
theories/P1443/Proofs.v
theories/P1443/Proofs2.v
theories/P1443/Proofs3.v
theories/P1443/Proofs4.v
theories/P1443/Proofs5.v
theories/P1443/Proofs6.v
theories/P1443/Proofs7.v
theories/P1443/Proofs8.v
theories/P1443/Props.v
theories/K1052/Model.v
theories/K1052/Spec.v
theories/K1052/Proofs.v
theories/K1052/Proofs2.v
theories/K1052/Proofs3.v
theories/K1052/Proofs4.v
theories/K1052/Props.v
theories/Disasm/Model.v
theories/Disasm/Spec.v
theories/Disasm/Proofs.v
theories/Disasm/Props.v
theories/D2841/Model.v
theories/D2841/Spec.v
theories/D2841/Proofs.v
theories/D2841/Proofs2.v
theories/D2841/Proofs3.v
theories/D2841/Proofs4.v
theories/D2841/Proofs5.v
theories/D2841/Proofs6.v
theories/D2841/Proofs7.v
theories/D2841/Proofs8.v
theories/D2841/Props.v
