-Q theories Verif
theories/Lib.v
theories/SM3_Iface.v
theories/SM3_Spec.v
theories/SM3_Model.v
theories/SM3_Proofs.v
theories/P_SM3.v
theories/Keccak_Spec.v
theories/Keccak_Model.v
theories/Keccak_Proofs.v
theories/Sha3_Iface.v
theories/Sha3_Spec.v
theories/Sha3_Ideal.v
theories/Sha3_Model.v
theories/Sha3_Client.v
theories/Sha3_Proofs.v
theories/Sha3_Proofs2.v
theories/P_SHA3.v
theories/AES_Tables.v
theories/AES_Spec.v
theories/AES_Model.v
theories/AES_Proofs.v
theories/AES_Proofs2.v
theories/P_AES.v
theories/DRBG_Spec.v
theories/DRBG_Model.v
theories/DRBG_Proofs.v
theories/P_DRBG.v
theories/MP.v
theories/NT.v
theories/Prime63.v
theories/PrimeCerts.v
theories/CSIDH_Field.v
theories/CSIDH_FieldProofs.v
theories/CSIDH_FieldProofs2.v
theories/CSIDH_Alias.v
theories/P_CSIDH_Field.v
theories/Instr.v
theories/CSIDH_Curve.v
theories/CSIDH_Model.v
theories/CSIDH_ApiProofs.v
theories/CSIDH_GaProofs.v
theories/P_CSIDH.v
theories/FieldAlg.v
theories/FieldTac.v
theories/MontCurve.v
theories/MontAssoc.v
theories/MontLadder.v
theories/MontIso.v
theories/CSIDH_CurveProofs.v
theories/CSIDH_ValidProofs.v
theories/P_CSIDH_Curve.v
theories/SIDH_Consts.v
theories/SIDH_Field.v
theories/SIDH_FieldProofs.v
theories/SIDH_Fp2Proofs.v
theories/SIDH_Inst.v
theories/P_SIDH_Field.v
theories/SIDH_Line.v
theories/SIDH_Curve.v
theories/SIDH_CurveProofs.v
theories/SIDH_Traverse.v
theories/SIDH_Points.v
theories/SIDH_Impl.v
theories/SIDH_Agree.v
theories/SIDH_Basis63.v
theories/SIDH_BasisCerts.v
theories/SIDH_Bytes.v
theories/SIDH_Final.v
theories/SIDH_IsoPoints.v
theories/P_SIDH_Curve.v
theories/SIDH_Api.v
theories/SIDH_ApiProofs.v
theories/P_SIDH_Api.v
theories/SIKE_Spec.v
theories/SIKE_Model.v
theories/SIKE_Proofs.v
theories/P_SIKE.v
theories/MKEM_Spec.v
theories/MKEM_Model.v
theories/MKEM_Proofs.v
theories/P_MKEM.v
theories/P_CSIDH_Zero.v
theories/CPKE_Spec.v
theories/CPKE_Model.v
theories/CPKE_Proofs.v
theories/P_CPKE.v
theories/X86.v
theories/X86_Sym.v
theories/X86_Call.v
theories/X86_Lin.v
theories/X86_Cut.v
theories/CSIDH_Asm.v
theories/CSIDH_AsmProofs.v
theories/P_CSIDH_Asm.v
theories/CPU_Model.v
theories/P_CPU.v
theories/AESNI.v
theories/AESNI_Code.v
theories/AESNI_Model.v
theories/AESNI_Proofs.v
theories/P_AESNI.v
theories/DRBG_AsmModel.v
theories/P_DRBG_Asm.v
theories/SIDH_Asm434.v
theories/SIDH_Asm503.v
theories/SIDH_Asm751.v
theories/X86_Mul.v
theories/X86_Glob.v
theories/SIDH_AsmModel.v
theories/SIDH_AsmChk.v
theories/SIDH_AsmRuns.v
theories/SIDH_AsmProofs.v
theories/P_SIDH_Asm.v
theories/SIDH_Arm503.v
theories/SIDH_Arm751.v
theories/SIDH_ArmModel.v
theories/SIDH_ArmChk.v
theories/SIDH_ArmRuns.v
theories/SIDH_ArmProofs.v
theories/P_SIDH_Arm.v
theories/SIDH_AsmFp2.v
theories/SIDH_AsmFp2Proofs.v
theories/SIDH_Sim.v
theories/SIDH_AsmCore.v
theories/SIDH_AsmCoreProofs.v
theories/P_SIDH_AsmFp2.v
theories/Keccak_Asm.v
theories/Keccak_AsmProofs.v
theories/P_Keccak_Asm.v
theories/CSIDH_AmdKern.v
theories/CSIDH_Amd.v
theories/CSIDH_AmdProofs.v
theories/CSIDH_AmdProofs2.v
theories/P_CSIDH_Amd.v
theories/P_X86_Safe.v
theories/SIDH_Alt.v
theories/P_SIDH_Alt.v
theories/Sha3_Amd.v
theories/P_Sha3_Amd.v
theories/DRBG_Cpu.v
theories/P_DRBG_Cpu.v
theories/SIKE_Mach.v
theories/P_SIKE_Mach.v
theories/SIKE_Amd.v
theories/P_SIKE_Amd.v
theories/MKEM_Amd.v
theories/P_MKEM_Amd.v
theories/CPKE_Amd.v
theories/P_CPKE_Amd.v
theories/P_SIDH_Mach.v
theories/CPKE_Drbg.v
theories/P_CPKE_Drbg.v
