(* The instruction methods of CodeGenerator, xbyak/xbyak_mnemonic.h, one Definition per method.
   Produced by tools/mnemonic.py from the header; the methods available in all configurations (64-bit).
   Integer arguments are wrapped to their C++ parameter type on entry.  Overloads carry a suffix
   of parameter classes (r Reg, b/w/d/q/e Reg8..Reg64/Reg32e, m Mmx, x y z t, k Opmask, n bound,
   f Fpu, o Operand, a Address, i integer, j LabelType, p PreferredEncoding, s label, v pointer);
   the const char * and Label overloads of jumps have the same body as the std::string one. *)
From Coq Require Import ZArith List Bool String.
From Verif Require Import Base Types Emit Encode.
Import ListNotations.
Open Scope Z_scope.

(* xbyak_mnemonic.h:2 *)
Definition i_aadd (p_addr : Address) (p_reg : Reg) : E unit :=
  opMR p_addr p_reg T_0F38 0x0FC T_APX NONE.
(* xbyak_mnemonic.h:3 *)
Definition i_aand (p_addr : Address) (p_reg : Reg) : E unit :=
  opMR p_addr p_reg (T_0F38 ||| T_66) 0x0FC (T_APX ||| T_66) NONE.
(* xbyak_mnemonic.h:4 *)
Definition i_adc_oi (p_op : Operand) (p_imm : Z) : E unit :=
  let p_imm := w32 p_imm in opOI p_op p_imm 0x10 2.
(* xbyak_mnemonic.h:5 *)
Definition i_adc_oo (p_op1 : Operand) (p_op2 : Operand) : E unit :=
  opRO_MR p_op1 p_op2 0x10.
(* xbyak_mnemonic.h:6 *)
Definition i_adc_roi (p_d : Reg) (p_op : Operand) (p_imm : Z) : E unit :=
  let p_imm := w32 p_imm in opROI p_d p_op p_imm T_NONE 2.
(* xbyak_mnemonic.h:7 *)
Definition i_adc_roo (p_d : Reg) (p_op1 : Operand) (p_op2 : Operand) : E unit :=
  opROO p_d p_op1 p_op2 T_NONE 0x10 0 NONE ;;; ret tt.
(* xbyak_mnemonic.h:8 *)
Definition i_adcx_eeo (p_d : Reg) (p_reg : Reg) (p_op : Operand) : E unit :=
  opROO p_d p_op (OReg p_reg) T_66 0x66 0 NONE ;;; ret tt.
(* xbyak_mnemonic.h:9 *)
Definition i_adcx_eo (p_reg : Reg) (p_op : Operand) : E unit :=
  fn tt (if ((negb (isREGb p_reg (16 ||| i32e))) && ((getBit p_reg) =? (getBit (ob p_op)))) then throw ERR_BAD_SIZE_OF_REGISTER else done <- opROO noReg p_op (OReg p_reg) T_66 0x66 0 NONE ;; if (done : bool) then ret tt else opRO p_reg p_op (T_66 ||| T_0F38) 0xF6 true 0).
(* xbyak_mnemonic.h:10 *)
Definition i_add_oi (p_op : Operand) (p_imm : Z) : E unit :=
  let p_imm := w32 p_imm in opOI p_op p_imm 0x00 0.
(* xbyak_mnemonic.h:11 *)
Definition i_add_oo (p_op1 : Operand) (p_op2 : Operand) : E unit :=
  opRO_MR p_op1 p_op2 0x00.
(* xbyak_mnemonic.h:12 *)
Definition i_add_roi (p_d : Reg) (p_op : Operand) (p_imm : Z) : E unit :=
  let p_imm := w32 p_imm in opROI p_d p_op p_imm (T_NF ||| T_CODE1_IF1) 0.
(* xbyak_mnemonic.h:13 *)
Definition i_add_roo (p_d : Reg) (p_op1 : Operand) (p_op2 : Operand) : E unit :=
  opROO p_d p_op1 p_op2 (T_NF ||| T_CODE1_IF1) 0x00 0 NONE ;;; ret tt.
(* xbyak_mnemonic.h:14 *)
Definition i_addpd (p_xmm : Reg) (p_op : Operand) : E unit :=
  opSSE p_xmm p_op (T_0F ||| T_66) 0x58 (Some isXMM_XMMorMEM) NONE.
(* xbyak_mnemonic.h:15 *)
Definition i_addps (p_xmm : Reg) (p_op : Operand) : E unit :=
  opSSE p_xmm p_op T_0F 0x58 (Some isXMM_XMMorMEM) NONE.
(* xbyak_mnemonic.h:16 *)
Definition i_addsd (p_xmm : Reg) (p_op : Operand) : E unit :=
  opSSE p_xmm p_op (T_0F ||| T_F2) 0x58 (Some isXMM_XMMorMEM) NONE.
(* xbyak_mnemonic.h:17 *)
Definition i_addss (p_xmm : Reg) (p_op : Operand) : E unit :=
  opSSE p_xmm p_op (T_0F ||| T_F3) 0x58 (Some isXMM_XMMorMEM) NONE.
(* xbyak_mnemonic.h:18 *)
Definition i_addsubpd (p_xmm : Reg) (p_op : Operand) : E unit :=
  opSSE p_xmm p_op ((T_66 ||| T_0F) ||| T_YMM) 0xD0 (Some isXMM_XMMorMEM) NONE.
(* xbyak_mnemonic.h:19 *)
Definition i_addsubps (p_xmm : Reg) (p_op : Operand) : E unit :=
  opSSE p_xmm p_op ((T_F2 ||| T_0F) ||| T_YMM) 0xD0 (Some isXMM_XMMorMEM) NONE.
(* xbyak_mnemonic.h:20 *)
Definition i_adox_eeo (p_d : Reg) (p_reg : Reg) (p_op : Operand) : E unit :=
  opROO p_d p_op (OReg p_reg) T_F3 0x66 0 NONE ;;; ret tt.
(* xbyak_mnemonic.h:21 *)
Definition i_adox_eo (p_reg : Reg) (p_op : Operand) : E unit :=
  fn tt (if ((negb (isREGb p_reg (16 ||| i32e))) && ((getBit p_reg) =? (getBit (ob p_op)))) then throw ERR_BAD_SIZE_OF_REGISTER else done <- opROO noReg p_op (OReg p_reg) T_F3 0x66 0 NONE ;; if (done : bool) then ret tt else opRO p_reg p_op (T_F3 ||| T_0F38) 0xF6 true 0).
(* xbyak_mnemonic.h:22 *)
Definition i_aesdec (p_xmm : Reg) (p_op : Operand) : E unit :=
  opSSE p_xmm p_op (((T_66 ||| T_0F38) ||| T_YMM) ||| T_EVEX) 0xDE (Some isXMM_XMMorMEM) NONE.
(* xbyak_mnemonic.h:23 *)
Definition i_aesdeclast (p_xmm : Reg) (p_op : Operand) : E unit :=
  opSSE p_xmm p_op (((T_66 ||| T_0F38) ||| T_YMM) ||| T_EVEX) 0xDF (Some isXMM_XMMorMEM) NONE.
(* xbyak_mnemonic.h:24 *)
Definition i_aesenc (p_xmm : Reg) (p_op : Operand) : E unit :=
  opSSE p_xmm p_op (((T_66 ||| T_0F38) ||| T_YMM) ||| T_EVEX) 0xDC (Some isXMM_XMMorMEM) NONE.
(* xbyak_mnemonic.h:25 *)
Definition i_aesenclast (p_xmm : Reg) (p_op : Operand) : E unit :=
  opSSE p_xmm p_op (((T_66 ||| T_0F38) ||| T_YMM) ||| T_EVEX) 0xDD (Some isXMM_XMMorMEM) NONE.
(* xbyak_mnemonic.h:26 *)
Definition i_aesimc (p_xmm : Reg) (p_op : Operand) : E unit :=
  opSSE p_xmm p_op ((T_66 ||| T_0F38) ||| T_W0) 0xDB (Some isXMM_XMMorMEM) NONE.
(* xbyak_mnemonic.h:27 *)
Definition i_aeskeygenassist (p_xmm : Reg) (p_op : Operand) (p_imm : Z) : E unit :=
  let p_imm := w8 p_imm in opSSE p_xmm p_op (T_66 ||| T_0F3A) 0xDF (Some isXMM_XMMorMEM) p_imm.
(* xbyak_mnemonic.h:28 *)
Definition i_and__oi (p_op : Operand) (p_imm : Z) : E unit :=
  let p_imm := w32 p_imm in opOI p_op p_imm 0x20 4.
(* xbyak_mnemonic.h:29 *)
Definition i_and__oo (p_op1 : Operand) (p_op2 : Operand) : E unit :=
  opRO_MR p_op1 p_op2 0x20.
(* xbyak_mnemonic.h:30 *)
Definition i_and__roi (p_d : Reg) (p_op : Operand) (p_imm : Z) : E unit :=
  let p_imm := w32 p_imm in opROI p_d p_op p_imm (T_NF ||| T_CODE1_IF1) 4.
(* xbyak_mnemonic.h:31 *)
Definition i_and__roo (p_d : Reg) (p_op1 : Operand) (p_op2 : Operand) : E unit :=
  opROO p_d p_op1 p_op2 (T_NF ||| T_CODE1_IF1) 0x20 0 NONE ;;; ret tt.
(* xbyak_mnemonic.h:32 *)
Definition i_andn (p_r1 : Reg) (p_r2 : Reg) (p_op : Operand) : E unit :=
  opRRO p_r1 p_r2 p_op ((T_APX ||| T_0F38) ||| T_NF) 0xf2 NONE.
(* xbyak_mnemonic.h:33 *)
Definition i_andnpd (p_xmm : Reg) (p_op : Operand) : E unit :=
  opSSE p_xmm p_op (T_0F ||| T_66) 0x55 (Some isXMM_XMMorMEM) NONE.
(* xbyak_mnemonic.h:34 *)
Definition i_andnps (p_xmm : Reg) (p_op : Operand) : E unit :=
  opSSE p_xmm p_op T_0F 0x55 (Some isXMM_XMMorMEM) NONE.
(* xbyak_mnemonic.h:35 *)
Definition i_andpd (p_xmm : Reg) (p_op : Operand) : E unit :=
  opSSE p_xmm p_op (T_0F ||| T_66) 0x54 (Some isXMM_XMMorMEM) NONE.
(* xbyak_mnemonic.h:36 *)
Definition i_andps (p_xmm : Reg) (p_op : Operand) : E unit :=
  opSSE p_xmm p_op T_0F 0x54 (Some isXMM_XMMorMEM) NONE.
(* xbyak_mnemonic.h:37 *)
Definition i_aor (p_addr : Address) (p_reg : Reg) : E unit :=
  opMR p_addr p_reg (T_0F38 ||| T_F2) 0x0FC (T_APX ||| T_F2) NONE.
(* xbyak_mnemonic.h:38 *)
Definition i_axor (p_addr : Address) (p_reg : Reg) : E unit :=
  opMR p_addr p_reg (T_0F38 ||| T_F3) 0x0FC (T_APX ||| T_F3) NONE.
(* xbyak_mnemonic.h:39 *)
Definition i_bextr (p_r1 : Reg) (p_op : Operand) (p_r2 : Reg) : E unit :=
  opRRO p_r1 p_r2 p_op ((T_APX ||| T_0F38) ||| T_NF) 0xf7 NONE.
(* xbyak_mnemonic.h:40 *)
Definition i_blendpd (p_xmm : Reg) (p_op : Operand) (p_imm : Z) : E unit :=
  let p_imm := s32 p_imm in opSSE p_xmm p_op (T_66 ||| T_0F3A) 0x0D (Some isXMM_XMMorMEM) (w8 p_imm).
(* xbyak_mnemonic.h:41 *)
Definition i_blendps (p_xmm : Reg) (p_op : Operand) (p_imm : Z) : E unit :=
  let p_imm := s32 p_imm in opSSE p_xmm p_op (T_66 ||| T_0F3A) 0x0C (Some isXMM_XMMorMEM) (w8 p_imm).
(* xbyak_mnemonic.h:42 *)
Definition i_blendvpd (p_xmm : Reg) (p_op : Operand) : E unit :=
  opSSE p_xmm p_op (T_66 ||| T_0F38) 0x15 (Some isXMM_XMMorMEM) NONE.
(* xbyak_mnemonic.h:43 *)
Definition i_blendvps (p_xmm : Reg) (p_op : Operand) : E unit :=
  opSSE p_xmm p_op (T_66 ||| T_0F38) 0x14 (Some isXMM_XMMorMEM) NONE.
(* xbyak_mnemonic.h:44 *)
Definition i_blsi (p_r : Reg) (p_op : Operand) : E unit :=
  opRRO (Reg32e 3 (getBit p_r)) p_r p_op ((T_APX ||| T_0F38) ||| T_NF) 0xf3 NONE.
(* xbyak_mnemonic.h:45 *)
Definition i_blsmsk (p_r : Reg) (p_op : Operand) : E unit :=
  opRRO (Reg32e 2 (getBit p_r)) p_r p_op ((T_APX ||| T_0F38) ||| T_NF) 0xf3 NONE.
(* xbyak_mnemonic.h:46 *)
Definition i_blsr (p_r : Reg) (p_op : Operand) : E unit :=
  opRRO (Reg32e 1 (getBit p_r)) p_r p_op ((T_APX ||| T_0F38) ||| T_NF) 0xf3 NONE.
(* xbyak_mnemonic.h:47 *)
Definition i_bnd : E unit :=
  db 0xF2.
(* xbyak_mnemonic.h:48 *)
Definition i_bndcl (p_bnd : Reg) (p_op : Operand) : E unit :=
  opRext p_op i32e (getIdx p_bnd) (T_F3 ||| T_0F) 0x1A (negb (isMEM p_op)) 0 None.
(* xbyak_mnemonic.h:49 *)
Definition i_bndcn (p_bnd : Reg) (p_op : Operand) : E unit :=
  opRext p_op i32e (getIdx p_bnd) (T_F2 ||| T_0F) 0x1B (negb (isMEM p_op)) 0 None.
(* xbyak_mnemonic.h:50 *)
Definition i_bndcu (p_bnd : Reg) (p_op : Operand) : E unit :=
  opRext p_op i32e (getIdx p_bnd) (T_F2 ||| T_0F) 0x1A (negb (isMEM p_op)) 0 None.
(* xbyak_mnemonic.h:51 *)
Definition i_bndldx (p_bnd : Reg) (p_addr : Address) : E unit :=
  opMIB p_addr p_bnd T_0F 0x1A.
(* xbyak_mnemonic.h:52 *)
Definition i_bndmk (p_bnd : Reg) (p_addr : Address) : E unit :=
  opMR p_addr p_bnd (T_F3 ||| T_0F) 0x1B 0 NONE.
(* xbyak_mnemonic.h:53 *)
Definition i_bndmov_an (p_addr : Address) (p_bnd : Reg) : E unit :=
  opMR p_addr p_bnd (T_66 ||| T_0F) 0x1B 0 NONE.
(* xbyak_mnemonic.h:54 *)
Definition i_bndmov_no (p_bnd : Reg) (p_op : Operand) : E unit :=
  opRO p_bnd p_op (T_66 ||| T_0F) 0x1A (isBNDREG (ob p_op)) 0.
(* xbyak_mnemonic.h:55 *)
Definition i_bndstx (p_addr : Address) (p_bnd : Reg) : E unit :=
  opMIB p_addr p_bnd T_0F 0x1B.
(* xbyak_mnemonic.h:56 *)
Definition i_bsf (p_reg : Reg) (p_op : Operand) : E unit :=
  opRO p_reg p_op T_0F 0xBC (isREGb (ob p_op) (16 ||| i32e)) 0.
(* xbyak_mnemonic.h:57 *)
Definition i_bsr (p_reg : Reg) (p_op : Operand) : E unit :=
  opRO p_reg p_op T_0F 0xBD (isREGb (ob p_op) (16 ||| i32e)) 0.
(* xbyak_mnemonic.h:58 *)
Definition i_bt_or (p_op : Operand) (p_reg : Reg) : E unit :=
  opRO p_reg p_op T_0F 0xA3 ((isREGb (ob p_op) (16 ||| i32e)) && ((getBit (ob p_op)) =? (getBit p_reg))) 0.
(* xbyak_mnemonic.h:59 *)
Definition i_bt_oi (p_op : Operand) (p_imm : Z) : E unit :=
  let p_imm := w8 p_imm in opRext p_op (16 ||| i32e) 4 T_0F 0xba false 1 None ;;; db p_imm.
(* xbyak_mnemonic.h:60 *)
Definition i_btc_or (p_op : Operand) (p_reg : Reg) : E unit :=
  opRO p_reg p_op T_0F 0xBB ((isREGb (ob p_op) (16 ||| i32e)) && ((getBit (ob p_op)) =? (getBit p_reg))) 0.
(* xbyak_mnemonic.h:61 *)
Definition i_btc_oi (p_op : Operand) (p_imm : Z) : E unit :=
  let p_imm := w8 p_imm in opRext p_op (16 ||| i32e) 7 T_0F 0xba false 1 None ;;; db p_imm.
(* xbyak_mnemonic.h:62 *)
Definition i_btr_or (p_op : Operand) (p_reg : Reg) : E unit :=
  opRO p_reg p_op T_0F 0xB3 ((isREGb (ob p_op) (16 ||| i32e)) && ((getBit (ob p_op)) =? (getBit p_reg))) 0.
(* xbyak_mnemonic.h:63 *)
Definition i_btr_oi (p_op : Operand) (p_imm : Z) : E unit :=
  let p_imm := w8 p_imm in opRext p_op (16 ||| i32e) 6 T_0F 0xba false 1 None ;;; db p_imm.
(* xbyak_mnemonic.h:64 *)
Definition i_bts_or (p_op : Operand) (p_reg : Reg) : E unit :=
  opRO p_reg p_op T_0F 0xAB ((isREGb (ob p_op) (16 ||| i32e)) && ((getBit (ob p_op)) =? (getBit p_reg))) 0.
(* xbyak_mnemonic.h:65 *)
Definition i_bts_oi (p_op : Operand) (p_imm : Z) : E unit :=
  let p_imm := w8 p_imm in opRext p_op (16 ||| i32e) 5 T_0F 0xba false 1 None ;;; db p_imm.
(* xbyak_mnemonic.h:66 *)
Definition i_bzhi (p_r1 : Reg) (p_op : Operand) (p_r2 : Reg) : E unit :=
  opRRO p_r1 p_r2 p_op ((T_APX ||| T_0F38) ||| T_NF) 0xf5 NONE.
(* xbyak_mnemonic.h:67 *)
Definition i_cbw : E unit :=
  db 0x66 ;;; db 0x98.
(* xbyak_mnemonic.h:68 *)
Definition i_ccmpa_oii (p_op : Operand) (p_imm : Z) (p_dfv : Z) : E unit :=
  let p_dfv := s32 p_dfv in let p_imm := s32 p_imm in opCcmpi p_op p_imm p_dfv 7.
(* xbyak_mnemonic.h:69 *)
Definition i_ccmpa_ooi (p_op1 : Operand) (p_op2 : Operand) (p_dfv : Z) : E unit :=
  let p_dfv := s32 p_dfv in opCcmp p_op1 p_op2 p_dfv 0x38 7.
(* xbyak_mnemonic.h:70 *)
Definition i_ccmpae_oii (p_op : Operand) (p_imm : Z) (p_dfv : Z) : E unit :=
  let p_dfv := s32 p_dfv in let p_imm := s32 p_imm in opCcmpi p_op p_imm p_dfv 3.
(* xbyak_mnemonic.h:71 *)
Definition i_ccmpae_ooi (p_op1 : Operand) (p_op2 : Operand) (p_dfv : Z) : E unit :=
  let p_dfv := s32 p_dfv in opCcmp p_op1 p_op2 p_dfv 0x38 3.
(* xbyak_mnemonic.h:72 *)
Definition i_ccmpb_oii (p_op : Operand) (p_imm : Z) (p_dfv : Z) : E unit :=
  let p_dfv := s32 p_dfv in let p_imm := s32 p_imm in opCcmpi p_op p_imm p_dfv 2.
(* xbyak_mnemonic.h:73 *)
Definition i_ccmpb_ooi (p_op1 : Operand) (p_op2 : Operand) (p_dfv : Z) : E unit :=
  let p_dfv := s32 p_dfv in opCcmp p_op1 p_op2 p_dfv 0x38 2.
(* xbyak_mnemonic.h:74 *)
Definition i_ccmpbe_oii (p_op : Operand) (p_imm : Z) (p_dfv : Z) : E unit :=
  let p_dfv := s32 p_dfv in let p_imm := s32 p_imm in opCcmpi p_op p_imm p_dfv 6.
(* xbyak_mnemonic.h:75 *)
Definition i_ccmpbe_ooi (p_op1 : Operand) (p_op2 : Operand) (p_dfv : Z) : E unit :=
  let p_dfv := s32 p_dfv in opCcmp p_op1 p_op2 p_dfv 0x38 6.
(* xbyak_mnemonic.h:76 *)
Definition i_ccmpc_oii (p_op : Operand) (p_imm : Z) (p_dfv : Z) : E unit :=
  let p_dfv := s32 p_dfv in let p_imm := s32 p_imm in opCcmpi p_op p_imm p_dfv 2.
(* xbyak_mnemonic.h:77 *)
Definition i_ccmpc_ooi (p_op1 : Operand) (p_op2 : Operand) (p_dfv : Z) : E unit :=
  let p_dfv := s32 p_dfv in opCcmp p_op1 p_op2 p_dfv 0x38 2.
(* xbyak_mnemonic.h:78 *)
Definition i_ccmpe_oii (p_op : Operand) (p_imm : Z) (p_dfv : Z) : E unit :=
  let p_dfv := s32 p_dfv in let p_imm := s32 p_imm in opCcmpi p_op p_imm p_dfv 4.
(* xbyak_mnemonic.h:79 *)
Definition i_ccmpe_ooi (p_op1 : Operand) (p_op2 : Operand) (p_dfv : Z) : E unit :=
  let p_dfv := s32 p_dfv in opCcmp p_op1 p_op2 p_dfv 0x38 4.
(* xbyak_mnemonic.h:80 *)
Definition i_ccmpf_oii (p_op : Operand) (p_imm : Z) (p_dfv : Z) : E unit :=
  let p_dfv := s32 p_dfv in let p_imm := s32 p_imm in opCcmpi p_op p_imm p_dfv 11.
(* xbyak_mnemonic.h:81 *)
Definition i_ccmpf_ooi (p_op1 : Operand) (p_op2 : Operand) (p_dfv : Z) : E unit :=
  let p_dfv := s32 p_dfv in opCcmp p_op1 p_op2 p_dfv 0x38 11.
(* xbyak_mnemonic.h:82 *)
Definition i_ccmpg_oii (p_op : Operand) (p_imm : Z) (p_dfv : Z) : E unit :=
  let p_dfv := s32 p_dfv in let p_imm := s32 p_imm in opCcmpi p_op p_imm p_dfv 15.
(* xbyak_mnemonic.h:83 *)
Definition i_ccmpg_ooi (p_op1 : Operand) (p_op2 : Operand) (p_dfv : Z) : E unit :=
  let p_dfv := s32 p_dfv in opCcmp p_op1 p_op2 p_dfv 0x38 15.
(* xbyak_mnemonic.h:84 *)
Definition i_ccmpge_oii (p_op : Operand) (p_imm : Z) (p_dfv : Z) : E unit :=
  let p_dfv := s32 p_dfv in let p_imm := s32 p_imm in opCcmpi p_op p_imm p_dfv 13.
(* xbyak_mnemonic.h:85 *)
Definition i_ccmpge_ooi (p_op1 : Operand) (p_op2 : Operand) (p_dfv : Z) : E unit :=
  let p_dfv := s32 p_dfv in opCcmp p_op1 p_op2 p_dfv 0x38 13.
(* xbyak_mnemonic.h:86 *)
Definition i_ccmpl_oii (p_op : Operand) (p_imm : Z) (p_dfv : Z) : E unit :=
  let p_dfv := s32 p_dfv in let p_imm := s32 p_imm in opCcmpi p_op p_imm p_dfv 12.
(* xbyak_mnemonic.h:87 *)
Definition i_ccmpl_ooi (p_op1 : Operand) (p_op2 : Operand) (p_dfv : Z) : E unit :=
  let p_dfv := s32 p_dfv in opCcmp p_op1 p_op2 p_dfv 0x38 12.
(* xbyak_mnemonic.h:88 *)
Definition i_ccmple_oii (p_op : Operand) (p_imm : Z) (p_dfv : Z) : E unit :=
  let p_dfv := s32 p_dfv in let p_imm := s32 p_imm in opCcmpi p_op p_imm p_dfv 14.
(* xbyak_mnemonic.h:89 *)
Definition i_ccmple_ooi (p_op1 : Operand) (p_op2 : Operand) (p_dfv : Z) : E unit :=
  let p_dfv := s32 p_dfv in opCcmp p_op1 p_op2 p_dfv 0x38 14.
(* xbyak_mnemonic.h:90 *)
Definition i_ccmpna_oii (p_op : Operand) (p_imm : Z) (p_dfv : Z) : E unit :=
  let p_dfv := s32 p_dfv in let p_imm := s32 p_imm in opCcmpi p_op p_imm p_dfv 6.
(* xbyak_mnemonic.h:91 *)
Definition i_ccmpna_ooi (p_op1 : Operand) (p_op2 : Operand) (p_dfv : Z) : E unit :=
  let p_dfv := s32 p_dfv in opCcmp p_op1 p_op2 p_dfv 0x38 6.
(* xbyak_mnemonic.h:92 *)
Definition i_ccmpnae_oii (p_op : Operand) (p_imm : Z) (p_dfv : Z) : E unit :=
  let p_dfv := s32 p_dfv in let p_imm := s32 p_imm in opCcmpi p_op p_imm p_dfv 2.
(* xbyak_mnemonic.h:93 *)
Definition i_ccmpnae_ooi (p_op1 : Operand) (p_op2 : Operand) (p_dfv : Z) : E unit :=
  let p_dfv := s32 p_dfv in opCcmp p_op1 p_op2 p_dfv 0x38 2.
(* xbyak_mnemonic.h:94 *)
Definition i_ccmpnb_oii (p_op : Operand) (p_imm : Z) (p_dfv : Z) : E unit :=
  let p_dfv := s32 p_dfv in let p_imm := s32 p_imm in opCcmpi p_op p_imm p_dfv 3.
(* xbyak_mnemonic.h:95 *)
Definition i_ccmpnb_ooi (p_op1 : Operand) (p_op2 : Operand) (p_dfv : Z) : E unit :=
  let p_dfv := s32 p_dfv in opCcmp p_op1 p_op2 p_dfv 0x38 3.
(* xbyak_mnemonic.h:96 *)
Definition i_ccmpnbe_oii (p_op : Operand) (p_imm : Z) (p_dfv : Z) : E unit :=
  let p_dfv := s32 p_dfv in let p_imm := s32 p_imm in opCcmpi p_op p_imm p_dfv 7.
(* xbyak_mnemonic.h:97 *)
Definition i_ccmpnbe_ooi (p_op1 : Operand) (p_op2 : Operand) (p_dfv : Z) : E unit :=
  let p_dfv := s32 p_dfv in opCcmp p_op1 p_op2 p_dfv 0x38 7.
(* xbyak_mnemonic.h:98 *)
Definition i_ccmpnc_oii (p_op : Operand) (p_imm : Z) (p_dfv : Z) : E unit :=
  let p_dfv := s32 p_dfv in let p_imm := s32 p_imm in opCcmpi p_op p_imm p_dfv 3.
(* xbyak_mnemonic.h:99 *)
Definition i_ccmpnc_ooi (p_op1 : Operand) (p_op2 : Operand) (p_dfv : Z) : E unit :=
  let p_dfv := s32 p_dfv in opCcmp p_op1 p_op2 p_dfv 0x38 3.
(* xbyak_mnemonic.h:100 *)
Definition i_ccmpne_oii (p_op : Operand) (p_imm : Z) (p_dfv : Z) : E unit :=
  let p_dfv := s32 p_dfv in let p_imm := s32 p_imm in opCcmpi p_op p_imm p_dfv 5.
(* xbyak_mnemonic.h:101 *)
Definition i_ccmpne_ooi (p_op1 : Operand) (p_op2 : Operand) (p_dfv : Z) : E unit :=
  let p_dfv := s32 p_dfv in opCcmp p_op1 p_op2 p_dfv 0x38 5.
(* xbyak_mnemonic.h:102 *)
Definition i_ccmpng_oii (p_op : Operand) (p_imm : Z) (p_dfv : Z) : E unit :=
  let p_dfv := s32 p_dfv in let p_imm := s32 p_imm in opCcmpi p_op p_imm p_dfv 14.
(* xbyak_mnemonic.h:103 *)
Definition i_ccmpng_ooi (p_op1 : Operand) (p_op2 : Operand) (p_dfv : Z) : E unit :=
  let p_dfv := s32 p_dfv in opCcmp p_op1 p_op2 p_dfv 0x38 14.
(* xbyak_mnemonic.h:104 *)
Definition i_ccmpnge_oii (p_op : Operand) (p_imm : Z) (p_dfv : Z) : E unit :=
  let p_dfv := s32 p_dfv in let p_imm := s32 p_imm in opCcmpi p_op p_imm p_dfv 12.
(* xbyak_mnemonic.h:105 *)
Definition i_ccmpnge_ooi (p_op1 : Operand) (p_op2 : Operand) (p_dfv : Z) : E unit :=
  let p_dfv := s32 p_dfv in opCcmp p_op1 p_op2 p_dfv 0x38 12.
(* xbyak_mnemonic.h:106 *)
Definition i_ccmpnl_oii (p_op : Operand) (p_imm : Z) (p_dfv : Z) : E unit :=
  let p_dfv := s32 p_dfv in let p_imm := s32 p_imm in opCcmpi p_op p_imm p_dfv 13.
(* xbyak_mnemonic.h:107 *)
Definition i_ccmpnl_ooi (p_op1 : Operand) (p_op2 : Operand) (p_dfv : Z) : E unit :=
  let p_dfv := s32 p_dfv in opCcmp p_op1 p_op2 p_dfv 0x38 13.
(* xbyak_mnemonic.h:108 *)
Definition i_ccmpnle_oii (p_op : Operand) (p_imm : Z) (p_dfv : Z) : E unit :=
  let p_dfv := s32 p_dfv in let p_imm := s32 p_imm in opCcmpi p_op p_imm p_dfv 15.
(* xbyak_mnemonic.h:109 *)
Definition i_ccmpnle_ooi (p_op1 : Operand) (p_op2 : Operand) (p_dfv : Z) : E unit :=
  let p_dfv := s32 p_dfv in opCcmp p_op1 p_op2 p_dfv 0x38 15.
(* xbyak_mnemonic.h:110 *)
Definition i_ccmpno_oii (p_op : Operand) (p_imm : Z) (p_dfv : Z) : E unit :=
  let p_dfv := s32 p_dfv in let p_imm := s32 p_imm in opCcmpi p_op p_imm p_dfv 1.
(* xbyak_mnemonic.h:111 *)
Definition i_ccmpno_ooi (p_op1 : Operand) (p_op2 : Operand) (p_dfv : Z) : E unit :=
  let p_dfv := s32 p_dfv in opCcmp p_op1 p_op2 p_dfv 0x38 1.
(* xbyak_mnemonic.h:112 *)
Definition i_ccmpns_oii (p_op : Operand) (p_imm : Z) (p_dfv : Z) : E unit :=
  let p_dfv := s32 p_dfv in let p_imm := s32 p_imm in opCcmpi p_op p_imm p_dfv 9.
(* xbyak_mnemonic.h:113 *)
Definition i_ccmpns_ooi (p_op1 : Operand) (p_op2 : Operand) (p_dfv : Z) : E unit :=
  let p_dfv := s32 p_dfv in opCcmp p_op1 p_op2 p_dfv 0x38 9.
(* xbyak_mnemonic.h:114 *)
Definition i_ccmpnz_oii (p_op : Operand) (p_imm : Z) (p_dfv : Z) : E unit :=
  let p_dfv := s32 p_dfv in let p_imm := s32 p_imm in opCcmpi p_op p_imm p_dfv 5.
(* xbyak_mnemonic.h:115 *)
Definition i_ccmpnz_ooi (p_op1 : Operand) (p_op2 : Operand) (p_dfv : Z) : E unit :=
  let p_dfv := s32 p_dfv in opCcmp p_op1 p_op2 p_dfv 0x38 5.
(* xbyak_mnemonic.h:116 *)
Definition i_ccmpo_oii (p_op : Operand) (p_imm : Z) (p_dfv : Z) : E unit :=
  let p_dfv := s32 p_dfv in let p_imm := s32 p_imm in opCcmpi p_op p_imm p_dfv 0.
(* xbyak_mnemonic.h:117 *)
Definition i_ccmpo_ooi (p_op1 : Operand) (p_op2 : Operand) (p_dfv : Z) : E unit :=
  let p_dfv := s32 p_dfv in opCcmp p_op1 p_op2 p_dfv 0x38 0.
(* xbyak_mnemonic.h:118 *)
Definition i_ccmps_oii (p_op : Operand) (p_imm : Z) (p_dfv : Z) : E unit :=
  let p_dfv := s32 p_dfv in let p_imm := s32 p_imm in opCcmpi p_op p_imm p_dfv 8.
(* xbyak_mnemonic.h:119 *)
Definition i_ccmps_ooi (p_op1 : Operand) (p_op2 : Operand) (p_dfv : Z) : E unit :=
  let p_dfv := s32 p_dfv in opCcmp p_op1 p_op2 p_dfv 0x38 8.
(* xbyak_mnemonic.h:120 *)
Definition i_ccmpt_oii (p_op : Operand) (p_imm : Z) (p_dfv : Z) : E unit :=
  let p_dfv := s32 p_dfv in let p_imm := s32 p_imm in opCcmpi p_op p_imm p_dfv 10.
(* xbyak_mnemonic.h:121 *)
Definition i_ccmpt_ooi (p_op1 : Operand) (p_op2 : Operand) (p_dfv : Z) : E unit :=
  let p_dfv := s32 p_dfv in opCcmp p_op1 p_op2 p_dfv 0x38 10.
(* xbyak_mnemonic.h:122 *)
Definition i_ccmpz_oii (p_op : Operand) (p_imm : Z) (p_dfv : Z) : E unit :=
  let p_dfv := s32 p_dfv in let p_imm := s32 p_imm in opCcmpi p_op p_imm p_dfv 4.
(* xbyak_mnemonic.h:123 *)
Definition i_ccmpz_ooi (p_op1 : Operand) (p_op2 : Operand) (p_dfv : Z) : E unit :=
  let p_dfv := s32 p_dfv in opCcmp p_op1 p_op2 p_dfv 0x38 4.
(* xbyak_mnemonic.h:124 *)
Definition i_cdq : E unit :=
  db 0x99.
(* xbyak_mnemonic.h:125 *)
Definition i_cfcmovb_oo (p_op1 : Operand) (p_op2 : Operand) : E unit :=
  opCfcmov noReg p_op1 p_op2 0x42.
(* xbyak_mnemonic.h:126 *)
Definition i_cfcmovb_rro (p_d : Reg) (p_r : Reg) (p_op : Operand) : E unit :=
  opCfcmov (setNF p_d) p_op (OReg p_r) 0x42.
(* xbyak_mnemonic.h:127 *)
Definition i_cfcmovbe_oo (p_op1 : Operand) (p_op2 : Operand) : E unit :=
  opCfcmov noReg p_op1 p_op2 0x46.
(* xbyak_mnemonic.h:128 *)
Definition i_cfcmovbe_rro (p_d : Reg) (p_r : Reg) (p_op : Operand) : E unit :=
  opCfcmov (setNF p_d) p_op (OReg p_r) 0x46.
(* xbyak_mnemonic.h:129 *)
Definition i_cfcmovl_oo (p_op1 : Operand) (p_op2 : Operand) : E unit :=
  opCfcmov noReg p_op1 p_op2 0x4C.
(* xbyak_mnemonic.h:130 *)
Definition i_cfcmovl_rro (p_d : Reg) (p_r : Reg) (p_op : Operand) : E unit :=
  opCfcmov (setNF p_d) p_op (OReg p_r) 0x4C.
(* xbyak_mnemonic.h:131 *)
Definition i_cfcmovle_oo (p_op1 : Operand) (p_op2 : Operand) : E unit :=
  opCfcmov noReg p_op1 p_op2 0x4E.
(* xbyak_mnemonic.h:132 *)
Definition i_cfcmovle_rro (p_d : Reg) (p_r : Reg) (p_op : Operand) : E unit :=
  opCfcmov (setNF p_d) p_op (OReg p_r) 0x4E.
(* xbyak_mnemonic.h:133 *)
Definition i_cfcmovnb_oo (p_op1 : Operand) (p_op2 : Operand) : E unit :=
  opCfcmov noReg p_op1 p_op2 0x43.
(* xbyak_mnemonic.h:134 *)
Definition i_cfcmovnb_rro (p_d : Reg) (p_r : Reg) (p_op : Operand) : E unit :=
  opCfcmov (setNF p_d) p_op (OReg p_r) 0x43.
(* xbyak_mnemonic.h:135 *)
Definition i_cfcmovnbe_oo (p_op1 : Operand) (p_op2 : Operand) : E unit :=
  opCfcmov noReg p_op1 p_op2 0x47.
(* xbyak_mnemonic.h:136 *)
Definition i_cfcmovnbe_rro (p_d : Reg) (p_r : Reg) (p_op : Operand) : E unit :=
  opCfcmov (setNF p_d) p_op (OReg p_r) 0x47.
(* xbyak_mnemonic.h:137 *)
Definition i_cfcmovnl_oo (p_op1 : Operand) (p_op2 : Operand) : E unit :=
  opCfcmov noReg p_op1 p_op2 0x4D.
(* xbyak_mnemonic.h:138 *)
Definition i_cfcmovnl_rro (p_d : Reg) (p_r : Reg) (p_op : Operand) : E unit :=
  opCfcmov (setNF p_d) p_op (OReg p_r) 0x4D.
(* xbyak_mnemonic.h:139 *)
Definition i_cfcmovnle_oo (p_op1 : Operand) (p_op2 : Operand) : E unit :=
  opCfcmov noReg p_op1 p_op2 0x4F.
(* xbyak_mnemonic.h:140 *)
Definition i_cfcmovnle_rro (p_d : Reg) (p_r : Reg) (p_op : Operand) : E unit :=
  opCfcmov (setNF p_d) p_op (OReg p_r) 0x4F.
(* xbyak_mnemonic.h:141 *)
Definition i_cfcmovno_oo (p_op1 : Operand) (p_op2 : Operand) : E unit :=
  opCfcmov noReg p_op1 p_op2 0x41.
(* xbyak_mnemonic.h:142 *)
Definition i_cfcmovno_rro (p_d : Reg) (p_r : Reg) (p_op : Operand) : E unit :=
  opCfcmov (setNF p_d) p_op (OReg p_r) 0x41.
(* xbyak_mnemonic.h:143 *)
Definition i_cfcmovnp_oo (p_op1 : Operand) (p_op2 : Operand) : E unit :=
  opCfcmov noReg p_op1 p_op2 0x4B.
(* xbyak_mnemonic.h:144 *)
Definition i_cfcmovnp_rro (p_d : Reg) (p_r : Reg) (p_op : Operand) : E unit :=
  opCfcmov (setNF p_d) p_op (OReg p_r) 0x4B.
(* xbyak_mnemonic.h:145 *)
Definition i_cfcmovns_oo (p_op1 : Operand) (p_op2 : Operand) : E unit :=
  opCfcmov noReg p_op1 p_op2 0x49.
(* xbyak_mnemonic.h:146 *)
Definition i_cfcmovns_rro (p_d : Reg) (p_r : Reg) (p_op : Operand) : E unit :=
  opCfcmov (setNF p_d) p_op (OReg p_r) 0x49.
(* xbyak_mnemonic.h:147 *)
Definition i_cfcmovnz_oo (p_op1 : Operand) (p_op2 : Operand) : E unit :=
  opCfcmov noReg p_op1 p_op2 0x45.
(* xbyak_mnemonic.h:148 *)
Definition i_cfcmovnz_rro (p_d : Reg) (p_r : Reg) (p_op : Operand) : E unit :=
  opCfcmov (setNF p_d) p_op (OReg p_r) 0x45.
(* xbyak_mnemonic.h:149 *)
Definition i_cfcmovo_oo (p_op1 : Operand) (p_op2 : Operand) : E unit :=
  opCfcmov noReg p_op1 p_op2 0x40.
(* xbyak_mnemonic.h:150 *)
Definition i_cfcmovo_rro (p_d : Reg) (p_r : Reg) (p_op : Operand) : E unit :=
  opCfcmov (setNF p_d) p_op (OReg p_r) 0x40.
(* xbyak_mnemonic.h:151 *)
Definition i_cfcmovp_oo (p_op1 : Operand) (p_op2 : Operand) : E unit :=
  opCfcmov noReg p_op1 p_op2 0x4A.
(* xbyak_mnemonic.h:152 *)
Definition i_cfcmovp_rro (p_d : Reg) (p_r : Reg) (p_op : Operand) : E unit :=
  opCfcmov (setNF p_d) p_op (OReg p_r) 0x4A.
(* xbyak_mnemonic.h:153 *)
Definition i_cfcmovs_oo (p_op1 : Operand) (p_op2 : Operand) : E unit :=
  opCfcmov noReg p_op1 p_op2 0x48.
(* xbyak_mnemonic.h:154 *)
Definition i_cfcmovs_rro (p_d : Reg) (p_r : Reg) (p_op : Operand) : E unit :=
  opCfcmov (setNF p_d) p_op (OReg p_r) 0x48.
(* xbyak_mnemonic.h:155 *)
Definition i_cfcmovz_oo (p_op1 : Operand) (p_op2 : Operand) : E unit :=
  opCfcmov noReg p_op1 p_op2 0x44.
(* xbyak_mnemonic.h:156 *)
Definition i_cfcmovz_rro (p_d : Reg) (p_r : Reg) (p_op : Operand) : E unit :=
  opCfcmov (setNF p_d) p_op (OReg p_r) 0x44.
(* xbyak_mnemonic.h:157 *)
Definition i_clc : E unit :=
  db 0xF8.
(* xbyak_mnemonic.h:158 *)
Definition i_cld : E unit :=
  db 0xFC.
(* xbyak_mnemonic.h:159 *)
Definition i_cldemote (p_addr : Address) : E unit :=
  opMR p_addr (Reg32 0) T_0F 0x1C 0 NONE.
(* xbyak_mnemonic.h:160 *)
Definition i_clflush (p_addr : Address) : E unit :=
  opMR p_addr (Reg32 7) T_0F 0xAE 0 NONE.
(* xbyak_mnemonic.h:161 *)
Definition i_clflushopt (p_addr : Address) : E unit :=
  opMR p_addr (Reg32 7) (T_66 ||| T_0F) 0xAE 0 NONE.
(* xbyak_mnemonic.h:162 *)
Definition i_cli : E unit :=
  db 0xFA.
(* xbyak_mnemonic.h:163 *)
Definition i_clwb (p_addr : Address) : E unit :=
  opMR p_addr (Reg32 6) (T_66 ||| T_0F) 0xAE 0 NONE.
(* xbyak_mnemonic.h:164 *)
Definition i_clzero : E unit :=
  db 0x0F ;;; db 0x01 ;;; db 0xFC.
(* xbyak_mnemonic.h:165 *)
Definition i_cmc : E unit :=
  db 0xF5.
(* xbyak_mnemonic.h:166 *)
Definition i_cmova_rro (p_d : Reg) (p_reg : Reg) (p_op : Operand) : E unit :=
  opROO p_d p_op (OReg p_reg) (T_APX ||| T_ND1) (0x40 ||| 7) 0 NONE ;;; ret tt.
(* xbyak_mnemonic.h:167 *)
Definition i_cmova_ro (p_reg : Reg) (p_op : Operand) : E unit :=
  opRO p_reg p_op T_0F (0x40 ||| 7) (isREGb (ob p_op) (16 ||| i32e)) 0.
(* xbyak_mnemonic.h:168 *)
Definition i_cmovae_rro (p_d : Reg) (p_reg : Reg) (p_op : Operand) : E unit :=
  opROO p_d p_op (OReg p_reg) (T_APX ||| T_ND1) (0x40 ||| 3) 0 NONE ;;; ret tt.
(* xbyak_mnemonic.h:169 *)
Definition i_cmovae_ro (p_reg : Reg) (p_op : Operand) : E unit :=
  opRO p_reg p_op T_0F (0x40 ||| 3) (isREGb (ob p_op) (16 ||| i32e)) 0.
(* xbyak_mnemonic.h:170 *)
Definition i_cmovb_rro (p_d : Reg) (p_reg : Reg) (p_op : Operand) : E unit :=
  opROO p_d p_op (OReg p_reg) (T_APX ||| T_ND1) (0x40 ||| 2) 0 NONE ;;; ret tt.
(* xbyak_mnemonic.h:171 *)
Definition i_cmovb_ro (p_reg : Reg) (p_op : Operand) : E unit :=
  opRO p_reg p_op T_0F (0x40 ||| 2) (isREGb (ob p_op) (16 ||| i32e)) 0.
(* xbyak_mnemonic.h:172 *)
Definition i_cmovbe_rro (p_d : Reg) (p_reg : Reg) (p_op : Operand) : E unit :=
  opROO p_d p_op (OReg p_reg) (T_APX ||| T_ND1) (0x40 ||| 6) 0 NONE ;;; ret tt.
(* xbyak_mnemonic.h:173 *)
Definition i_cmovbe_ro (p_reg : Reg) (p_op : Operand) : E unit :=
  opRO p_reg p_op T_0F (0x40 ||| 6) (isREGb (ob p_op) (16 ||| i32e)) 0.
(* xbyak_mnemonic.h:174 *)
Definition i_cmovc_rro (p_d : Reg) (p_reg : Reg) (p_op : Operand) : E unit :=
  opROO p_d p_op (OReg p_reg) (T_APX ||| T_ND1) (0x40 ||| 2) 0 NONE ;;; ret tt.
(* xbyak_mnemonic.h:175 *)
Definition i_cmovc_ro (p_reg : Reg) (p_op : Operand) : E unit :=
  opRO p_reg p_op T_0F (0x40 ||| 2) (isREGb (ob p_op) (16 ||| i32e)) 0.
(* xbyak_mnemonic.h:176 *)
Definition i_cmove_rro (p_d : Reg) (p_reg : Reg) (p_op : Operand) : E unit :=
  opROO p_d p_op (OReg p_reg) (T_APX ||| T_ND1) (0x40 ||| 4) 0 NONE ;;; ret tt.
(* xbyak_mnemonic.h:177 *)
Definition i_cmove_ro (p_reg : Reg) (p_op : Operand) : E unit :=
  opRO p_reg p_op T_0F (0x40 ||| 4) (isREGb (ob p_op) (16 ||| i32e)) 0.
(* xbyak_mnemonic.h:178 *)
Definition i_cmovg_rro (p_d : Reg) (p_reg : Reg) (p_op : Operand) : E unit :=
  opROO p_d p_op (OReg p_reg) (T_APX ||| T_ND1) (0x40 ||| 15) 0 NONE ;;; ret tt.
(* xbyak_mnemonic.h:179 *)
Definition i_cmovg_ro (p_reg : Reg) (p_op : Operand) : E unit :=
  opRO p_reg p_op T_0F (0x40 ||| 15) (isREGb (ob p_op) (16 ||| i32e)) 0.
(* xbyak_mnemonic.h:180 *)
Definition i_cmovge_rro (p_d : Reg) (p_reg : Reg) (p_op : Operand) : E unit :=
  opROO p_d p_op (OReg p_reg) (T_APX ||| T_ND1) (0x40 ||| 13) 0 NONE ;;; ret tt.
(* xbyak_mnemonic.h:181 *)
Definition i_cmovge_ro (p_reg : Reg) (p_op : Operand) : E unit :=
  opRO p_reg p_op T_0F (0x40 ||| 13) (isREGb (ob p_op) (16 ||| i32e)) 0.
(* xbyak_mnemonic.h:182 *)
Definition i_cmovl_rro (p_d : Reg) (p_reg : Reg) (p_op : Operand) : E unit :=
  opROO p_d p_op (OReg p_reg) (T_APX ||| T_ND1) (0x40 ||| 12) 0 NONE ;;; ret tt.
(* xbyak_mnemonic.h:183 *)
Definition i_cmovl_ro (p_reg : Reg) (p_op : Operand) : E unit :=
  opRO p_reg p_op T_0F (0x40 ||| 12) (isREGb (ob p_op) (16 ||| i32e)) 0.
(* xbyak_mnemonic.h:184 *)
Definition i_cmovle_rro (p_d : Reg) (p_reg : Reg) (p_op : Operand) : E unit :=
  opROO p_d p_op (OReg p_reg) (T_APX ||| T_ND1) (0x40 ||| 14) 0 NONE ;;; ret tt.
(* xbyak_mnemonic.h:185 *)
Definition i_cmovle_ro (p_reg : Reg) (p_op : Operand) : E unit :=
  opRO p_reg p_op T_0F (0x40 ||| 14) (isREGb (ob p_op) (16 ||| i32e)) 0.
(* xbyak_mnemonic.h:186 *)
Definition i_cmovna_rro (p_d : Reg) (p_reg : Reg) (p_op : Operand) : E unit :=
  opROO p_d p_op (OReg p_reg) (T_APX ||| T_ND1) (0x40 ||| 6) 0 NONE ;;; ret tt.
(* xbyak_mnemonic.h:187 *)
Definition i_cmovna_ro (p_reg : Reg) (p_op : Operand) : E unit :=
  opRO p_reg p_op T_0F (0x40 ||| 6) (isREGb (ob p_op) (16 ||| i32e)) 0.
(* xbyak_mnemonic.h:188 *)
Definition i_cmovnae_rro (p_d : Reg) (p_reg : Reg) (p_op : Operand) : E unit :=
  opROO p_d p_op (OReg p_reg) (T_APX ||| T_ND1) (0x40 ||| 2) 0 NONE ;;; ret tt.
(* xbyak_mnemonic.h:189 *)
Definition i_cmovnae_ro (p_reg : Reg) (p_op : Operand) : E unit :=
  opRO p_reg p_op T_0F (0x40 ||| 2) (isREGb (ob p_op) (16 ||| i32e)) 0.
(* xbyak_mnemonic.h:190 *)
Definition i_cmovnb_rro (p_d : Reg) (p_reg : Reg) (p_op : Operand) : E unit :=
  opROO p_d p_op (OReg p_reg) (T_APX ||| T_ND1) (0x40 ||| 3) 0 NONE ;;; ret tt.
(* xbyak_mnemonic.h:191 *)
Definition i_cmovnb_ro (p_reg : Reg) (p_op : Operand) : E unit :=
  opRO p_reg p_op T_0F (0x40 ||| 3) (isREGb (ob p_op) (16 ||| i32e)) 0.
(* xbyak_mnemonic.h:192 *)
Definition i_cmovnbe_rro (p_d : Reg) (p_reg : Reg) (p_op : Operand) : E unit :=
  opROO p_d p_op (OReg p_reg) (T_APX ||| T_ND1) (0x40 ||| 7) 0 NONE ;;; ret tt.
(* xbyak_mnemonic.h:193 *)
Definition i_cmovnbe_ro (p_reg : Reg) (p_op : Operand) : E unit :=
  opRO p_reg p_op T_0F (0x40 ||| 7) (isREGb (ob p_op) (16 ||| i32e)) 0.
(* xbyak_mnemonic.h:194 *)
Definition i_cmovnc_rro (p_d : Reg) (p_reg : Reg) (p_op : Operand) : E unit :=
  opROO p_d p_op (OReg p_reg) (T_APX ||| T_ND1) (0x40 ||| 3) 0 NONE ;;; ret tt.
(* xbyak_mnemonic.h:195 *)
Definition i_cmovnc_ro (p_reg : Reg) (p_op : Operand) : E unit :=
  opRO p_reg p_op T_0F (0x40 ||| 3) (isREGb (ob p_op) (16 ||| i32e)) 0.
(* xbyak_mnemonic.h:196 *)
Definition i_cmovne_rro (p_d : Reg) (p_reg : Reg) (p_op : Operand) : E unit :=
  opROO p_d p_op (OReg p_reg) (T_APX ||| T_ND1) (0x40 ||| 5) 0 NONE ;;; ret tt.
(* xbyak_mnemonic.h:197 *)
Definition i_cmovne_ro (p_reg : Reg) (p_op : Operand) : E unit :=
  opRO p_reg p_op T_0F (0x40 ||| 5) (isREGb (ob p_op) (16 ||| i32e)) 0.
(* xbyak_mnemonic.h:198 *)
Definition i_cmovng_rro (p_d : Reg) (p_reg : Reg) (p_op : Operand) : E unit :=
  opROO p_d p_op (OReg p_reg) (T_APX ||| T_ND1) (0x40 ||| 14) 0 NONE ;;; ret tt.
(* xbyak_mnemonic.h:199 *)
Definition i_cmovng_ro (p_reg : Reg) (p_op : Operand) : E unit :=
  opRO p_reg p_op T_0F (0x40 ||| 14) (isREGb (ob p_op) (16 ||| i32e)) 0.
(* xbyak_mnemonic.h:200 *)
Definition i_cmovnge_rro (p_d : Reg) (p_reg : Reg) (p_op : Operand) : E unit :=
  opROO p_d p_op (OReg p_reg) (T_APX ||| T_ND1) (0x40 ||| 12) 0 NONE ;;; ret tt.
(* xbyak_mnemonic.h:201 *)
Definition i_cmovnge_ro (p_reg : Reg) (p_op : Operand) : E unit :=
  opRO p_reg p_op T_0F (0x40 ||| 12) (isREGb (ob p_op) (16 ||| i32e)) 0.
(* xbyak_mnemonic.h:202 *)
Definition i_cmovnl_rro (p_d : Reg) (p_reg : Reg) (p_op : Operand) : E unit :=
  opROO p_d p_op (OReg p_reg) (T_APX ||| T_ND1) (0x40 ||| 13) 0 NONE ;;; ret tt.
(* xbyak_mnemonic.h:203 *)
Definition i_cmovnl_ro (p_reg : Reg) (p_op : Operand) : E unit :=
  opRO p_reg p_op T_0F (0x40 ||| 13) (isREGb (ob p_op) (16 ||| i32e)) 0.
(* xbyak_mnemonic.h:204 *)
Definition i_cmovnle_rro (p_d : Reg) (p_reg : Reg) (p_op : Operand) : E unit :=
  opROO p_d p_op (OReg p_reg) (T_APX ||| T_ND1) (0x40 ||| 15) 0 NONE ;;; ret tt.
(* xbyak_mnemonic.h:205 *)
Definition i_cmovnle_ro (p_reg : Reg) (p_op : Operand) : E unit :=
  opRO p_reg p_op T_0F (0x40 ||| 15) (isREGb (ob p_op) (16 ||| i32e)) 0.
(* xbyak_mnemonic.h:206 *)
Definition i_cmovno_rro (p_d : Reg) (p_reg : Reg) (p_op : Operand) : E unit :=
  opROO p_d p_op (OReg p_reg) (T_APX ||| T_ND1) (0x40 ||| 1) 0 NONE ;;; ret tt.
(* xbyak_mnemonic.h:207 *)
Definition i_cmovno_ro (p_reg : Reg) (p_op : Operand) : E unit :=
  opRO p_reg p_op T_0F (0x40 ||| 1) (isREGb (ob p_op) (16 ||| i32e)) 0.
(* xbyak_mnemonic.h:208 *)
Definition i_cmovnp_rro (p_d : Reg) (p_reg : Reg) (p_op : Operand) : E unit :=
  opROO p_d p_op (OReg p_reg) (T_APX ||| T_ND1) (0x40 ||| 11) 0 NONE ;;; ret tt.
(* xbyak_mnemonic.h:209 *)
Definition i_cmovnp_ro (p_reg : Reg) (p_op : Operand) : E unit :=
  opRO p_reg p_op T_0F (0x40 ||| 11) (isREGb (ob p_op) (16 ||| i32e)) 0.
(* xbyak_mnemonic.h:210 *)
Definition i_cmovns_rro (p_d : Reg) (p_reg : Reg) (p_op : Operand) : E unit :=
  opROO p_d p_op (OReg p_reg) (T_APX ||| T_ND1) (0x40 ||| 9) 0 NONE ;;; ret tt.
(* xbyak_mnemonic.h:211 *)
Definition i_cmovns_ro (p_reg : Reg) (p_op : Operand) : E unit :=
  opRO p_reg p_op T_0F (0x40 ||| 9) (isREGb (ob p_op) (16 ||| i32e)) 0.
(* xbyak_mnemonic.h:212 *)
Definition i_cmovnz_rro (p_d : Reg) (p_reg : Reg) (p_op : Operand) : E unit :=
  opROO p_d p_op (OReg p_reg) (T_APX ||| T_ND1) (0x40 ||| 5) 0 NONE ;;; ret tt.
(* xbyak_mnemonic.h:213 *)
Definition i_cmovnz_ro (p_reg : Reg) (p_op : Operand) : E unit :=
  opRO p_reg p_op T_0F (0x40 ||| 5) (isREGb (ob p_op) (16 ||| i32e)) 0.
(* xbyak_mnemonic.h:214 *)
Definition i_cmovo_rro (p_d : Reg) (p_reg : Reg) (p_op : Operand) : E unit :=
  opROO p_d p_op (OReg p_reg) (T_APX ||| T_ND1) (0x40 ||| 0) 0 NONE ;;; ret tt.
(* xbyak_mnemonic.h:215 *)
Definition i_cmovo_ro (p_reg : Reg) (p_op : Operand) : E unit :=
  opRO p_reg p_op T_0F (0x40 ||| 0) (isREGb (ob p_op) (16 ||| i32e)) 0.
(* xbyak_mnemonic.h:216 *)
Definition i_cmovp_rro (p_d : Reg) (p_reg : Reg) (p_op : Operand) : E unit :=
  opROO p_d p_op (OReg p_reg) (T_APX ||| T_ND1) (0x40 ||| 10) 0 NONE ;;; ret tt.
(* xbyak_mnemonic.h:217 *)
Definition i_cmovp_ro (p_reg : Reg) (p_op : Operand) : E unit :=
  opRO p_reg p_op T_0F (0x40 ||| 10) (isREGb (ob p_op) (16 ||| i32e)) 0.
(* xbyak_mnemonic.h:218 *)
Definition i_cmovpe_rro (p_d : Reg) (p_reg : Reg) (p_op : Operand) : E unit :=
  opROO p_d p_op (OReg p_reg) (T_APX ||| T_ND1) (0x40 ||| 10) 0 NONE ;;; ret tt.
(* xbyak_mnemonic.h:219 *)
Definition i_cmovpe_ro (p_reg : Reg) (p_op : Operand) : E unit :=
  opRO p_reg p_op T_0F (0x40 ||| 10) (isREGb (ob p_op) (16 ||| i32e)) 0.
(* xbyak_mnemonic.h:220 *)
Definition i_cmovpo_rro (p_d : Reg) (p_reg : Reg) (p_op : Operand) : E unit :=
  opROO p_d p_op (OReg p_reg) (T_APX ||| T_ND1) (0x40 ||| 11) 0 NONE ;;; ret tt.
(* xbyak_mnemonic.h:221 *)
Definition i_cmovpo_ro (p_reg : Reg) (p_op : Operand) : E unit :=
  opRO p_reg p_op T_0F (0x40 ||| 11) (isREGb (ob p_op) (16 ||| i32e)) 0.
(* xbyak_mnemonic.h:222 *)
Definition i_cmovs_rro (p_d : Reg) (p_reg : Reg) (p_op : Operand) : E unit :=
  opROO p_d p_op (OReg p_reg) (T_APX ||| T_ND1) (0x40 ||| 8) 0 NONE ;;; ret tt.
(* xbyak_mnemonic.h:223 *)
Definition i_cmovs_ro (p_reg : Reg) (p_op : Operand) : E unit :=
  opRO p_reg p_op T_0F (0x40 ||| 8) (isREGb (ob p_op) (16 ||| i32e)) 0.
(* xbyak_mnemonic.h:224 *)
Definition i_cmovz_rro (p_d : Reg) (p_reg : Reg) (p_op : Operand) : E unit :=
  opROO p_d p_op (OReg p_reg) (T_APX ||| T_ND1) (0x40 ||| 4) 0 NONE ;;; ret tt.
(* xbyak_mnemonic.h:225 *)
Definition i_cmovz_ro (p_reg : Reg) (p_op : Operand) : E unit :=
  opRO p_reg p_op T_0F (0x40 ||| 4) (isREGb (ob p_op) (16 ||| i32e)) 0.
(* xbyak_mnemonic.h:226 *)
Definition i_cmp_oi (p_op : Operand) (p_imm : Z) : E unit :=
  let p_imm := w32 p_imm in opOI p_op p_imm 0x38 7.
(* xbyak_mnemonic.h:227 *)
Definition i_cmp_oo (p_op1 : Operand) (p_op2 : Operand) : E unit :=
  opRO_MR p_op1 p_op2 0x38.
(* xbyak_mnemonic.h:256 *)
Definition i_cmppd (p_xmm : Reg) (p_op : Operand) (p_imm8 : Z) : E unit :=
  let p_imm8 := w8 p_imm8 in opSSE p_xmm p_op (T_0F ||| T_66) 0xC2 (Some isXMM_XMMorMEM) p_imm8.
(* xbyak_mnemonic.h:228 *)
Definition i_cmpeqpd (p_x : Reg) (p_op : Operand) : E unit :=
  i_cmppd p_x p_op 0.
(* xbyak_mnemonic.h:257 *)
Definition i_cmpps (p_xmm : Reg) (p_op : Operand) (p_imm8 : Z) : E unit :=
  let p_imm8 := w8 p_imm8 in opSSE p_xmm p_op T_0F 0xC2 (Some isXMM_XMMorMEM) p_imm8.
(* xbyak_mnemonic.h:229 *)
Definition i_cmpeqps (p_x : Reg) (p_op : Operand) : E unit :=
  i_cmpps p_x p_op 0.
(* xbyak_mnemonic.h:260 *)
Definition i_cmpsd_xoi (p_xmm : Reg) (p_op : Operand) (p_imm8 : Z) : E unit :=
  let p_imm8 := w8 p_imm8 in opSSE p_xmm p_op (T_0F ||| T_F2) 0xC2 (Some isXMM_XMMorMEM) p_imm8.
(* xbyak_mnemonic.h:230 *)
Definition i_cmpeqsd (p_x : Reg) (p_op : Operand) : E unit :=
  i_cmpsd_xoi p_x p_op 0.
(* xbyak_mnemonic.h:261 *)
Definition i_cmpss (p_xmm : Reg) (p_op : Operand) (p_imm8 : Z) : E unit :=
  let p_imm8 := w8 p_imm8 in opSSE p_xmm p_op (T_0F ||| T_F3) 0xC2 (Some isXMM_XMMorMEM) p_imm8.
(* xbyak_mnemonic.h:231 *)
Definition i_cmpeqss (p_x : Reg) (p_op : Operand) : E unit :=
  i_cmpss p_x p_op 0.
(* xbyak_mnemonic.h:232 *)
Definition i_cmplepd (p_x : Reg) (p_op : Operand) : E unit :=
  i_cmppd p_x p_op 2.
(* xbyak_mnemonic.h:233 *)
Definition i_cmpleps (p_x : Reg) (p_op : Operand) : E unit :=
  i_cmpps p_x p_op 2.
(* xbyak_mnemonic.h:234 *)
Definition i_cmplesd (p_x : Reg) (p_op : Operand) : E unit :=
  i_cmpsd_xoi p_x p_op 2.
(* xbyak_mnemonic.h:235 *)
Definition i_cmpless (p_x : Reg) (p_op : Operand) : E unit :=
  i_cmpss p_x p_op 2.
(* xbyak_mnemonic.h:236 *)
Definition i_cmpltpd (p_x : Reg) (p_op : Operand) : E unit :=
  i_cmppd p_x p_op 1.
(* xbyak_mnemonic.h:237 *)
Definition i_cmpltps (p_x : Reg) (p_op : Operand) : E unit :=
  i_cmpps p_x p_op 1.
(* xbyak_mnemonic.h:238 *)
Definition i_cmpltsd (p_x : Reg) (p_op : Operand) : E unit :=
  i_cmpsd_xoi p_x p_op 1.
(* xbyak_mnemonic.h:239 *)
Definition i_cmpltss (p_x : Reg) (p_op : Operand) : E unit :=
  i_cmpss p_x p_op 1.
(* xbyak_mnemonic.h:240 *)
Definition i_cmpneqpd (p_x : Reg) (p_op : Operand) : E unit :=
  i_cmppd p_x p_op 4.
(* xbyak_mnemonic.h:241 *)
Definition i_cmpneqps (p_x : Reg) (p_op : Operand) : E unit :=
  i_cmpps p_x p_op 4.
(* xbyak_mnemonic.h:242 *)
Definition i_cmpneqsd (p_x : Reg) (p_op : Operand) : E unit :=
  i_cmpsd_xoi p_x p_op 4.
(* xbyak_mnemonic.h:243 *)
Definition i_cmpneqss (p_x : Reg) (p_op : Operand) : E unit :=
  i_cmpss p_x p_op 4.
(* xbyak_mnemonic.h:244 *)
Definition i_cmpnlepd (p_x : Reg) (p_op : Operand) : E unit :=
  i_cmppd p_x p_op 6.
(* xbyak_mnemonic.h:245 *)
Definition i_cmpnleps (p_x : Reg) (p_op : Operand) : E unit :=
  i_cmpps p_x p_op 6.
(* xbyak_mnemonic.h:246 *)
Definition i_cmpnlesd (p_x : Reg) (p_op : Operand) : E unit :=
  i_cmpsd_xoi p_x p_op 6.
(* xbyak_mnemonic.h:247 *)
Definition i_cmpnless (p_x : Reg) (p_op : Operand) : E unit :=
  i_cmpss p_x p_op 6.
(* xbyak_mnemonic.h:248 *)
Definition i_cmpnltpd (p_x : Reg) (p_op : Operand) : E unit :=
  i_cmppd p_x p_op 5.
(* xbyak_mnemonic.h:249 *)
Definition i_cmpnltps (p_x : Reg) (p_op : Operand) : E unit :=
  i_cmpps p_x p_op 5.
(* xbyak_mnemonic.h:250 *)
Definition i_cmpnltsd (p_x : Reg) (p_op : Operand) : E unit :=
  i_cmpsd_xoi p_x p_op 5.
(* xbyak_mnemonic.h:251 *)
Definition i_cmpnltss (p_x : Reg) (p_op : Operand) : E unit :=
  i_cmpss p_x p_op 5.
(* xbyak_mnemonic.h:252 *)
Definition i_cmpordpd (p_x : Reg) (p_op : Operand) : E unit :=
  i_cmppd p_x p_op 7.
(* xbyak_mnemonic.h:253 *)
Definition i_cmpordps (p_x : Reg) (p_op : Operand) : E unit :=
  i_cmpps p_x p_op 7.
(* xbyak_mnemonic.h:254 *)
Definition i_cmpordsd (p_x : Reg) (p_op : Operand) : E unit :=
  i_cmpsd_xoi p_x p_op 7.
(* xbyak_mnemonic.h:255 *)
Definition i_cmpordss (p_x : Reg) (p_op : Operand) : E unit :=
  i_cmpss p_x p_op 7.
(* xbyak_mnemonic.h:258 *)
Definition i_cmpsb : E unit :=
  db 0xA6.
(* xbyak_mnemonic.h:259 *)
Definition i_cmpsd_none : E unit :=
  db 0xA7.
(* xbyak_mnemonic.h:262 *)
Definition i_cmpsw : E unit :=
  db 0x66 ;;; db 0xA7.
(* xbyak_mnemonic.h:263 *)
Definition i_cmpunordpd (p_x : Reg) (p_op : Operand) : E unit :=
  i_cmppd p_x p_op 3.
(* xbyak_mnemonic.h:264 *)
Definition i_cmpunordps (p_x : Reg) (p_op : Operand) : E unit :=
  i_cmpps p_x p_op 3.
(* xbyak_mnemonic.h:265 *)
Definition i_cmpunordsd (p_x : Reg) (p_op : Operand) : E unit :=
  i_cmpsd_xoi p_x p_op 3.
(* xbyak_mnemonic.h:266 *)
Definition i_cmpunordss (p_x : Reg) (p_op : Operand) : E unit :=
  i_cmpss p_x p_op 3.
(* xbyak_mnemonic.h:267 *)
Definition i_cmpxchg (p_op : Operand) (p_reg : Reg) : E unit :=
  opRO p_reg p_op T_0F (0xB0 ||| (if (isBit p_reg 8) then 0 else 1)) ((getBit (ob p_op)) =? (getBit p_reg)) 0.
(* xbyak_mnemonic.h:268 *)
Definition i_cmpxchg8b (p_addr : Address) : E unit :=
  opMR p_addr (Reg32 1) T_0F 0xC7 0 NONE.
(* xbyak_mnemonic.h:269 *)
Definition i_comisd (p_xmm : Reg) (p_op : Operand) : E unit :=
  opSSE p_xmm p_op (T_66 ||| T_0F) 0x2F (Some isXMM_XMMorMEM) NONE.
(* xbyak_mnemonic.h:270 *)
Definition i_comiss (p_xmm : Reg) (p_op : Operand) : E unit :=
  opSSE p_xmm p_op T_0F 0x2F (Some isXMM_XMMorMEM) NONE.
(* xbyak_mnemonic.h:271 *)
Definition i_cpuid : E unit :=
  db 0x0F ;;; db 0xA2.
(* xbyak_mnemonic.h:272 *)
Definition i_crc32 (p_r : Reg) (p_op : Operand) : E unit :=
  fn tt (if (negb (((isBit p_r 32) && (isBit (ob p_op) ((8 ||| 16) ||| 32))) || ((isBit p_r 64) && (isBit (ob p_op) (8 ||| 64))))) then throw ERR_BAD_SIZE_OF_REGISTER else let v_code := (0xF0 ||| (if (isBit (ob p_op) 8) then 0 else 1)) in let v_type := (if (isBit (ob p_op) 16) then T_66 else 0) in let v_type := v_type ||| T_ALLOW_DIFF_SIZE in done <- opROO noReg p_op (OReg p_r) (T_APX ||| v_type) v_code 0 NONE ;; if (done : bool) then ret tt else opRO p_r p_op ((T_F2 ||| T_0F38) ||| v_type) v_code true 0).
(* xbyak_mnemonic.h:273 *)
Definition i_ctesta_ori (p_op : Operand) (p_r : Reg) (p_dfv : Z) : E unit :=
  let p_dfv := s32 p_dfv in opCcmp p_op (OReg p_r) p_dfv 0x84 7.
(* xbyak_mnemonic.h:274 *)
Definition i_ctesta_oii (p_op : Operand) (p_imm : Z) (p_dfv : Z) : E unit :=
  let p_dfv := s32 p_dfv in let p_imm := s32 p_imm in opTesti p_op p_imm p_dfv 7.
(* xbyak_mnemonic.h:275 *)
Definition i_ctestae_ori (p_op : Operand) (p_r : Reg) (p_dfv : Z) : E unit :=
  let p_dfv := s32 p_dfv in opCcmp p_op (OReg p_r) p_dfv 0x84 3.
(* xbyak_mnemonic.h:276 *)
Definition i_ctestae_oii (p_op : Operand) (p_imm : Z) (p_dfv : Z) : E unit :=
  let p_dfv := s32 p_dfv in let p_imm := s32 p_imm in opTesti p_op p_imm p_dfv 3.
(* xbyak_mnemonic.h:277 *)
Definition i_ctestb_ori (p_op : Operand) (p_r : Reg) (p_dfv : Z) : E unit :=
  let p_dfv := s32 p_dfv in opCcmp p_op (OReg p_r) p_dfv 0x84 2.
(* xbyak_mnemonic.h:278 *)
Definition i_ctestb_oii (p_op : Operand) (p_imm : Z) (p_dfv : Z) : E unit :=
  let p_dfv := s32 p_dfv in let p_imm := s32 p_imm in opTesti p_op p_imm p_dfv 2.
(* xbyak_mnemonic.h:279 *)
Definition i_ctestbe_ori (p_op : Operand) (p_r : Reg) (p_dfv : Z) : E unit :=
  let p_dfv := s32 p_dfv in opCcmp p_op (OReg p_r) p_dfv 0x84 6.
(* xbyak_mnemonic.h:280 *)
Definition i_ctestbe_oii (p_op : Operand) (p_imm : Z) (p_dfv : Z) : E unit :=
  let p_dfv := s32 p_dfv in let p_imm := s32 p_imm in opTesti p_op p_imm p_dfv 6.
(* xbyak_mnemonic.h:281 *)
Definition i_ctestc_ori (p_op : Operand) (p_r : Reg) (p_dfv : Z) : E unit :=
  let p_dfv := s32 p_dfv in opCcmp p_op (OReg p_r) p_dfv 0x84 2.
(* xbyak_mnemonic.h:282 *)
Definition i_ctestc_oii (p_op : Operand) (p_imm : Z) (p_dfv : Z) : E unit :=
  let p_dfv := s32 p_dfv in let p_imm := s32 p_imm in opTesti p_op p_imm p_dfv 2.
(* xbyak_mnemonic.h:283 *)
Definition i_cteste_ori (p_op : Operand) (p_r : Reg) (p_dfv : Z) : E unit :=
  let p_dfv := s32 p_dfv in opCcmp p_op (OReg p_r) p_dfv 0x84 4.
(* xbyak_mnemonic.h:284 *)
Definition i_cteste_oii (p_op : Operand) (p_imm : Z) (p_dfv : Z) : E unit :=
  let p_dfv := s32 p_dfv in let p_imm := s32 p_imm in opTesti p_op p_imm p_dfv 4.
(* xbyak_mnemonic.h:285 *)
Definition i_ctestf_ori (p_op : Operand) (p_r : Reg) (p_dfv : Z) : E unit :=
  let p_dfv := s32 p_dfv in opCcmp p_op (OReg p_r) p_dfv 0x84 11.
(* xbyak_mnemonic.h:286 *)
Definition i_ctestf_oii (p_op : Operand) (p_imm : Z) (p_dfv : Z) : E unit :=
  let p_dfv := s32 p_dfv in let p_imm := s32 p_imm in opTesti p_op p_imm p_dfv 11.
(* xbyak_mnemonic.h:287 *)
Definition i_ctestg_ori (p_op : Operand) (p_r : Reg) (p_dfv : Z) : E unit :=
  let p_dfv := s32 p_dfv in opCcmp p_op (OReg p_r) p_dfv 0x84 15.
(* xbyak_mnemonic.h:288 *)
Definition i_ctestg_oii (p_op : Operand) (p_imm : Z) (p_dfv : Z) : E unit :=
  let p_dfv := s32 p_dfv in let p_imm := s32 p_imm in opTesti p_op p_imm p_dfv 15.
(* xbyak_mnemonic.h:289 *)
Definition i_ctestge_ori (p_op : Operand) (p_r : Reg) (p_dfv : Z) : E unit :=
  let p_dfv := s32 p_dfv in opCcmp p_op (OReg p_r) p_dfv 0x84 13.
(* xbyak_mnemonic.h:290 *)
Definition i_ctestge_oii (p_op : Operand) (p_imm : Z) (p_dfv : Z) : E unit :=
  let p_dfv := s32 p_dfv in let p_imm := s32 p_imm in opTesti p_op p_imm p_dfv 13.
(* xbyak_mnemonic.h:291 *)
Definition i_ctestl_ori (p_op : Operand) (p_r : Reg) (p_dfv : Z) : E unit :=
  let p_dfv := s32 p_dfv in opCcmp p_op (OReg p_r) p_dfv 0x84 12.
(* xbyak_mnemonic.h:292 *)
Definition i_ctestl_oii (p_op : Operand) (p_imm : Z) (p_dfv : Z) : E unit :=
  let p_dfv := s32 p_dfv in let p_imm := s32 p_imm in opTesti p_op p_imm p_dfv 12.
(* xbyak_mnemonic.h:293 *)
Definition i_ctestle_ori (p_op : Operand) (p_r : Reg) (p_dfv : Z) : E unit :=
  let p_dfv := s32 p_dfv in opCcmp p_op (OReg p_r) p_dfv 0x84 14.
(* xbyak_mnemonic.h:294 *)
Definition i_ctestle_oii (p_op : Operand) (p_imm : Z) (p_dfv : Z) : E unit :=
  let p_dfv := s32 p_dfv in let p_imm := s32 p_imm in opTesti p_op p_imm p_dfv 14.
(* xbyak_mnemonic.h:295 *)
Definition i_ctestna_ori (p_op : Operand) (p_r : Reg) (p_dfv : Z) : E unit :=
  let p_dfv := s32 p_dfv in opCcmp p_op (OReg p_r) p_dfv 0x84 6.
(* xbyak_mnemonic.h:296 *)
Definition i_ctestna_oii (p_op : Operand) (p_imm : Z) (p_dfv : Z) : E unit :=
  let p_dfv := s32 p_dfv in let p_imm := s32 p_imm in opTesti p_op p_imm p_dfv 6.
(* xbyak_mnemonic.h:297 *)
Definition i_ctestnae_ori (p_op : Operand) (p_r : Reg) (p_dfv : Z) : E unit :=
  let p_dfv := s32 p_dfv in opCcmp p_op (OReg p_r) p_dfv 0x84 2.
(* xbyak_mnemonic.h:298 *)
Definition i_ctestnae_oii (p_op : Operand) (p_imm : Z) (p_dfv : Z) : E unit :=
  let p_dfv := s32 p_dfv in let p_imm := s32 p_imm in opTesti p_op p_imm p_dfv 2.
(* xbyak_mnemonic.h:299 *)
Definition i_ctestnb_ori (p_op : Operand) (p_r : Reg) (p_dfv : Z) : E unit :=
  let p_dfv := s32 p_dfv in opCcmp p_op (OReg p_r) p_dfv 0x84 3.
(* xbyak_mnemonic.h:300 *)
Definition i_ctestnb_oii (p_op : Operand) (p_imm : Z) (p_dfv : Z) : E unit :=
  let p_dfv := s32 p_dfv in let p_imm := s32 p_imm in opTesti p_op p_imm p_dfv 3.
(* xbyak_mnemonic.h:301 *)
Definition i_ctestnbe_ori (p_op : Operand) (p_r : Reg) (p_dfv : Z) : E unit :=
  let p_dfv := s32 p_dfv in opCcmp p_op (OReg p_r) p_dfv 0x84 7.
(* xbyak_mnemonic.h:302 *)
Definition i_ctestnbe_oii (p_op : Operand) (p_imm : Z) (p_dfv : Z) : E unit :=
  let p_dfv := s32 p_dfv in let p_imm := s32 p_imm in opTesti p_op p_imm p_dfv 7.
(* xbyak_mnemonic.h:303 *)
Definition i_ctestnc_ori (p_op : Operand) (p_r : Reg) (p_dfv : Z) : E unit :=
  let p_dfv := s32 p_dfv in opCcmp p_op (OReg p_r) p_dfv 0x84 3.
(* xbyak_mnemonic.h:304 *)
Definition i_ctestnc_oii (p_op : Operand) (p_imm : Z) (p_dfv : Z) : E unit :=
  let p_dfv := s32 p_dfv in let p_imm := s32 p_imm in opTesti p_op p_imm p_dfv 3.
(* xbyak_mnemonic.h:305 *)
Definition i_ctestne_ori (p_op : Operand) (p_r : Reg) (p_dfv : Z) : E unit :=
  let p_dfv := s32 p_dfv in opCcmp p_op (OReg p_r) p_dfv 0x84 5.
(* xbyak_mnemonic.h:306 *)
Definition i_ctestne_oii (p_op : Operand) (p_imm : Z) (p_dfv : Z) : E unit :=
  let p_dfv := s32 p_dfv in let p_imm := s32 p_imm in opTesti p_op p_imm p_dfv 5.
(* xbyak_mnemonic.h:307 *)
Definition i_ctestng_ori (p_op : Operand) (p_r : Reg) (p_dfv : Z) : E unit :=
  let p_dfv := s32 p_dfv in opCcmp p_op (OReg p_r) p_dfv 0x84 14.
(* xbyak_mnemonic.h:308 *)
Definition i_ctestng_oii (p_op : Operand) (p_imm : Z) (p_dfv : Z) : E unit :=
  let p_dfv := s32 p_dfv in let p_imm := s32 p_imm in opTesti p_op p_imm p_dfv 14.
(* xbyak_mnemonic.h:309 *)
Definition i_ctestnge_ori (p_op : Operand) (p_r : Reg) (p_dfv : Z) : E unit :=
  let p_dfv := s32 p_dfv in opCcmp p_op (OReg p_r) p_dfv 0x84 12.
(* xbyak_mnemonic.h:310 *)
Definition i_ctestnge_oii (p_op : Operand) (p_imm : Z) (p_dfv : Z) : E unit :=
  let p_dfv := s32 p_dfv in let p_imm := s32 p_imm in opTesti p_op p_imm p_dfv 12.
(* xbyak_mnemonic.h:311 *)
Definition i_ctestnl_ori (p_op : Operand) (p_r : Reg) (p_dfv : Z) : E unit :=
  let p_dfv := s32 p_dfv in opCcmp p_op (OReg p_r) p_dfv 0x84 13.
(* xbyak_mnemonic.h:312 *)
Definition i_ctestnl_oii (p_op : Operand) (p_imm : Z) (p_dfv : Z) : E unit :=
  let p_dfv := s32 p_dfv in let p_imm := s32 p_imm in opTesti p_op p_imm p_dfv 13.
(* xbyak_mnemonic.h:313 *)
Definition i_ctestnle_ori (p_op : Operand) (p_r : Reg) (p_dfv : Z) : E unit :=
  let p_dfv := s32 p_dfv in opCcmp p_op (OReg p_r) p_dfv 0x84 15.
(* xbyak_mnemonic.h:314 *)
Definition i_ctestnle_oii (p_op : Operand) (p_imm : Z) (p_dfv : Z) : E unit :=
  let p_dfv := s32 p_dfv in let p_imm := s32 p_imm in opTesti p_op p_imm p_dfv 15.
(* xbyak_mnemonic.h:315 *)
Definition i_ctestno_ori (p_op : Operand) (p_r : Reg) (p_dfv : Z) : E unit :=
  let p_dfv := s32 p_dfv in opCcmp p_op (OReg p_r) p_dfv 0x84 1.
(* xbyak_mnemonic.h:316 *)
Definition i_ctestno_oii (p_op : Operand) (p_imm : Z) (p_dfv : Z) : E unit :=
  let p_dfv := s32 p_dfv in let p_imm := s32 p_imm in opTesti p_op p_imm p_dfv 1.
(* xbyak_mnemonic.h:317 *)
Definition i_ctestns_ori (p_op : Operand) (p_r : Reg) (p_dfv : Z) : E unit :=
  let p_dfv := s32 p_dfv in opCcmp p_op (OReg p_r) p_dfv 0x84 9.
(* xbyak_mnemonic.h:318 *)
Definition i_ctestns_oii (p_op : Operand) (p_imm : Z) (p_dfv : Z) : E unit :=
  let p_dfv := s32 p_dfv in let p_imm := s32 p_imm in opTesti p_op p_imm p_dfv 9.
(* xbyak_mnemonic.h:319 *)
Definition i_ctestnz_ori (p_op : Operand) (p_r : Reg) (p_dfv : Z) : E unit :=
  let p_dfv := s32 p_dfv in opCcmp p_op (OReg p_r) p_dfv 0x84 5.
(* xbyak_mnemonic.h:320 *)
Definition i_ctestnz_oii (p_op : Operand) (p_imm : Z) (p_dfv : Z) : E unit :=
  let p_dfv := s32 p_dfv in let p_imm := s32 p_imm in opTesti p_op p_imm p_dfv 5.
(* xbyak_mnemonic.h:321 *)
Definition i_ctesto_ori (p_op : Operand) (p_r : Reg) (p_dfv : Z) : E unit :=
  let p_dfv := s32 p_dfv in opCcmp p_op (OReg p_r) p_dfv 0x84 0.
(* xbyak_mnemonic.h:322 *)
Definition i_ctesto_oii (p_op : Operand) (p_imm : Z) (p_dfv : Z) : E unit :=
  let p_dfv := s32 p_dfv in let p_imm := s32 p_imm in opTesti p_op p_imm p_dfv 0.
(* xbyak_mnemonic.h:323 *)
Definition i_ctests_ori (p_op : Operand) (p_r : Reg) (p_dfv : Z) : E unit :=
  let p_dfv := s32 p_dfv in opCcmp p_op (OReg p_r) p_dfv 0x84 8.
(* xbyak_mnemonic.h:324 *)
Definition i_ctests_oii (p_op : Operand) (p_imm : Z) (p_dfv : Z) : E unit :=
  let p_dfv := s32 p_dfv in let p_imm := s32 p_imm in opTesti p_op p_imm p_dfv 8.
(* xbyak_mnemonic.h:325 *)
Definition i_ctestt_ori (p_op : Operand) (p_r : Reg) (p_dfv : Z) : E unit :=
  let p_dfv := s32 p_dfv in opCcmp p_op (OReg p_r) p_dfv 0x84 10.
(* xbyak_mnemonic.h:326 *)
Definition i_ctestt_oii (p_op : Operand) (p_imm : Z) (p_dfv : Z) : E unit :=
  let p_dfv := s32 p_dfv in let p_imm := s32 p_imm in opTesti p_op p_imm p_dfv 10.
(* xbyak_mnemonic.h:327 *)
Definition i_ctestz_ori (p_op : Operand) (p_r : Reg) (p_dfv : Z) : E unit :=
  let p_dfv := s32 p_dfv in opCcmp p_op (OReg p_r) p_dfv 0x84 4.
(* xbyak_mnemonic.h:328 *)
Definition i_ctestz_oii (p_op : Operand) (p_imm : Z) (p_dfv : Z) : E unit :=
  let p_dfv := s32 p_dfv in let p_imm := s32 p_imm in opTesti p_op p_imm p_dfv 4.
(* xbyak_mnemonic.h:329 *)
Definition i_cvtdq2pd (p_xmm : Reg) (p_op : Operand) : E unit :=
  opSSE p_xmm p_op (T_F3 ||| T_0F) 0xE6 (Some isXMM_XMMorMEM) NONE.
(* xbyak_mnemonic.h:330 *)
Definition i_cvtdq2ps (p_xmm : Reg) (p_op : Operand) : E unit :=
  opSSE p_xmm p_op T_0F 0x5B (Some isXMM_XMMorMEM) NONE.
(* xbyak_mnemonic.h:331 *)
Definition i_cvtpd2dq (p_xmm : Reg) (p_op : Operand) : E unit :=
  opSSE p_xmm p_op (T_F2 ||| T_0F) 0xE6 (Some isXMM_XMMorMEM) NONE.
(* xbyak_mnemonic.h:332 *)
Definition i_cvtpd2pi (p_reg : Reg) (p_op : Operand) : E unit :=
  opSSE p_reg p_op (T_66 ||| T_0F) 0x2D (Some isMMX_XMMorMEM) NONE.
(* xbyak_mnemonic.h:333 *)
Definition i_cvtpd2ps (p_xmm : Reg) (p_op : Operand) : E unit :=
  opSSE p_xmm p_op (T_66 ||| T_0F) 0x5A (Some isXMM_XMMorMEM) NONE.
(* xbyak_mnemonic.h:334 *)
Definition i_cvtpi2pd (p_reg : Reg) (p_op : Operand) : E unit :=
  opSSE p_reg p_op (T_66 ||| T_0F) 0x2A (Some isXMM_MMXorMEM) NONE.
(* xbyak_mnemonic.h:335 *)
Definition i_cvtpi2ps (p_reg : Reg) (p_op : Operand) : E unit :=
  opSSE p_reg p_op T_0F 0x2A (Some isXMM_MMXorMEM) NONE.
(* xbyak_mnemonic.h:336 *)
Definition i_cvtps2dq (p_xmm : Reg) (p_op : Operand) : E unit :=
  opSSE p_xmm p_op (T_66 ||| T_0F) 0x5B (Some isXMM_XMMorMEM) NONE.
(* xbyak_mnemonic.h:337 *)
Definition i_cvtps2pd (p_xmm : Reg) (p_op : Operand) : E unit :=
  opSSE p_xmm p_op T_0F 0x5A (Some isXMM_XMMorMEM) NONE.
(* xbyak_mnemonic.h:338 *)
Definition i_cvtps2pi (p_reg : Reg) (p_op : Operand) : E unit :=
  opSSE p_reg p_op T_0F 0x2D (Some isMMX_XMMorMEM) NONE.
(* xbyak_mnemonic.h:339 *)
Definition i_cvtsd2si (p_reg : Reg) (p_op : Operand) : E unit :=
  opSSE p_reg p_op (T_F2 ||| T_0F) 0x2D (Some isREG32_XMMorMEM) NONE.
(* xbyak_mnemonic.h:340 *)
Definition i_cvtsd2ss (p_xmm : Reg) (p_op : Operand) : E unit :=
  opSSE p_xmm p_op (T_F2 ||| T_0F) 0x5A (Some isXMM_XMMorMEM) NONE.
(* xbyak_mnemonic.h:341 *)
Definition i_cvtsi2sd (p_reg : Reg) (p_op : Operand) : E unit :=
  opSSE p_reg p_op (T_F2 ||| T_0F) 0x2A (Some isXMM_REG32orMEM) NONE.
(* xbyak_mnemonic.h:342 *)
Definition i_cvtsi2ss (p_reg : Reg) (p_op : Operand) : E unit :=
  opSSE p_reg p_op (T_F3 ||| T_0F) 0x2A (Some isXMM_REG32orMEM) NONE.
(* xbyak_mnemonic.h:343 *)
Definition i_cvtss2sd (p_xmm : Reg) (p_op : Operand) : E unit :=
  opSSE p_xmm p_op (T_F3 ||| T_0F) 0x5A (Some isXMM_XMMorMEM) NONE.
(* xbyak_mnemonic.h:344 *)
Definition i_cvtss2si (p_reg : Reg) (p_op : Operand) : E unit :=
  opSSE p_reg p_op (T_F3 ||| T_0F) 0x2D (Some isREG32_XMMorMEM) NONE.
(* xbyak_mnemonic.h:345 *)
Definition i_cvttpd2dq (p_xmm : Reg) (p_op : Operand) : E unit :=
  opSSE p_xmm p_op (T_66 ||| T_0F) 0xE6 (Some isXMM_XMMorMEM) NONE.
(* xbyak_mnemonic.h:346 *)
Definition i_cvttpd2pi (p_reg : Reg) (p_op : Operand) : E unit :=
  opSSE p_reg p_op (T_66 ||| T_0F) 0x2C (Some isMMX_XMMorMEM) NONE.
(* xbyak_mnemonic.h:347 *)
Definition i_cvttps2dq (p_xmm : Reg) (p_op : Operand) : E unit :=
  opSSE p_xmm p_op (T_F3 ||| T_0F) 0x5B (Some isXMM_XMMorMEM) NONE.
(* xbyak_mnemonic.h:348 *)
Definition i_cvttps2pi (p_reg : Reg) (p_op : Operand) : E unit :=
  opSSE p_reg p_op T_0F 0x2C (Some isMMX_XMMorMEM) NONE.
(* xbyak_mnemonic.h:349 *)
Definition i_cvttsd2si (p_reg : Reg) (p_op : Operand) : E unit :=
  opSSE p_reg p_op (T_F2 ||| T_0F) 0x2C (Some isREG32_XMMorMEM) NONE.
(* xbyak_mnemonic.h:350 *)
Definition i_cvttss2si (p_reg : Reg) (p_op : Operand) : E unit :=
  opSSE p_reg p_op (T_F3 ||| T_0F) 0x2C (Some isREG32_XMMorMEM) NONE.
(* xbyak_mnemonic.h:351 *)
Definition i_cwd : E unit :=
  db 0x66 ;;; db 0x99.
(* xbyak_mnemonic.h:352 *)
Definition i_cwde : E unit :=
  db 0x98.
(* xbyak_mnemonic.h:353 *)
Definition i_dec_o (p_op : Operand) : E unit :=
  opIncDec noReg p_op 1.
(* xbyak_mnemonic.h:354 *)
Definition i_dec_ro (p_d : Reg) (p_op : Operand) : E unit :=
  opIncDec p_d p_op 1.
(* xbyak_mnemonic.h:355 *)
Definition i_div (p_op : Operand) : E unit :=
  opRext p_op 0 6 ((T_APX ||| T_NF) ||| T_CODE1_IF1) 0xF6 false 0 None.
(* xbyak_mnemonic.h:356 *)
Definition i_divpd (p_xmm : Reg) (p_op : Operand) : E unit :=
  opSSE p_xmm p_op (T_0F ||| T_66) 0x5E (Some isXMM_XMMorMEM) NONE.
(* xbyak_mnemonic.h:357 *)
Definition i_divps (p_xmm : Reg) (p_op : Operand) : E unit :=
  opSSE p_xmm p_op T_0F 0x5E (Some isXMM_XMMorMEM) NONE.
(* xbyak_mnemonic.h:358 *)
Definition i_divsd (p_xmm : Reg) (p_op : Operand) : E unit :=
  opSSE p_xmm p_op (T_0F ||| T_F2) 0x5E (Some isXMM_XMMorMEM) NONE.
(* xbyak_mnemonic.h:359 *)
Definition i_divss (p_xmm : Reg) (p_op : Operand) : E unit :=
  opSSE p_xmm p_op (T_0F ||| T_F3) 0x5E (Some isXMM_XMMorMEM) NONE.
(* xbyak_mnemonic.h:360 *)
Definition i_dppd (p_xmm : Reg) (p_op : Operand) (p_imm : Z) : E unit :=
  let p_imm := s32 p_imm in opSSE p_xmm p_op (T_66 ||| T_0F3A) 0x41 (Some isXMM_XMMorMEM) (w8 p_imm).
(* xbyak_mnemonic.h:361 *)
Definition i_dpps (p_xmm : Reg) (p_op : Operand) (p_imm : Z) : E unit :=
  let p_imm := s32 p_imm in opSSE p_xmm p_op (T_66 ||| T_0F3A) 0x40 (Some isXMM_XMMorMEM) (w8 p_imm).
(* xbyak_mnemonic.h:362 *)
Definition i_emms : E unit :=
  db 0x0F ;;; db 0x77.
(* xbyak_mnemonic.h:363 *)
Definition i_endbr32 : E unit :=
  db 0xF3 ;;; db 0x0F ;;; db 0x1E ;;; db 0xFB.
(* xbyak_mnemonic.h:364 *)
Definition i_endbr64 : E unit :=
  db 0xF3 ;;; db 0x0F ;;; db 0x1E ;;; db 0xFA.
(* xbyak_mnemonic.h:365 *)
Definition i_enter (p_x : Z) (p_y : Z) : E unit :=
  let p_y := w8 p_y in let p_x := w16 p_x in db 0xC8 ;;; dw p_x ;;; db p_y.
(* xbyak_mnemonic.h:366 *)
Definition i_extractps (p_op : Operand) (p_xmm : Reg) (p_imm : Z) : E unit :=
  let p_imm := w8 p_imm in opExt p_op p_xmm 0x17 p_imm false.
(* xbyak_mnemonic.h:367 *)
Definition i_f2xm1 : E unit :=
  db 0xD9 ;;; db 0xF0.
(* xbyak_mnemonic.h:368 *)
Definition i_fabs : E unit :=
  db 0xD9 ;;; db 0xE1.
(* xbyak_mnemonic.h:369 *)
Definition i_fadd_a (p_addr : Address) : E unit :=
  opFpuMem p_addr 0x00 0xD8 0xDC 0 0.
(* xbyak_mnemonic.h:370 *)
Definition i_fadd_f (p_reg1 : Reg) : E unit :=
  opFpuFpu (Fpu 0) p_reg1 0xD8C0 0xDCC0.
(* xbyak_mnemonic.h:371 *)
Definition i_fadd_ff (p_reg1 : Reg) (p_reg2 : Reg) : E unit :=
  opFpuFpu p_reg1 p_reg2 0xD8C0 0xDCC0.
(* xbyak_mnemonic.h:372 *)
Definition i_faddp_none : E unit :=
  db 0xDE ;;; db 0xC1.
(* xbyak_mnemonic.h:373 *)
Definition i_faddp_f (p_reg1 : Reg) : E unit :=
  opFpuFpu p_reg1 (Fpu 0) 0x0000 0xDEC0.
(* xbyak_mnemonic.h:374 *)
Definition i_faddp_ff (p_reg1 : Reg) (p_reg2 : Reg) : E unit :=
  opFpuFpu p_reg1 p_reg2 0x0000 0xDEC0.
(* xbyak_mnemonic.h:375 *)
Definition i_fbld (p_addr : Address) : E unit :=
  opMR p_addr (Reg32 4) 0 0xDF 0 NONE.
(* xbyak_mnemonic.h:376 *)
Definition i_fbstp (p_addr : Address) : E unit :=
  opMR p_addr (Reg32 6) 0 0xDF 0 NONE.
(* xbyak_mnemonic.h:377 *)
Definition i_fchs : E unit :=
  db 0xD9 ;;; db 0xE0.
(* xbyak_mnemonic.h:378 *)
Definition i_fclex : E unit :=
  db 0x9B ;;; db 0xDB ;;; db 0xE2.
(* xbyak_mnemonic.h:379 *)
Definition i_fcmovb_f (p_reg1 : Reg) : E unit :=
  opFpuFpu (Fpu 0) p_reg1 0xDAC0 0x00C0.
(* xbyak_mnemonic.h:380 *)
Definition i_fcmovb_ff (p_reg1 : Reg) (p_reg2 : Reg) : E unit :=
  opFpuFpu p_reg1 p_reg2 0xDAC0 0x00C0.
(* xbyak_mnemonic.h:381 *)
Definition i_fcmovbe_f (p_reg1 : Reg) : E unit :=
  opFpuFpu (Fpu 0) p_reg1 0xDAD0 0x00D0.
(* xbyak_mnemonic.h:382 *)
Definition i_fcmovbe_ff (p_reg1 : Reg) (p_reg2 : Reg) : E unit :=
  opFpuFpu p_reg1 p_reg2 0xDAD0 0x00D0.
(* xbyak_mnemonic.h:383 *)
Definition i_fcmove_f (p_reg1 : Reg) : E unit :=
  opFpuFpu (Fpu 0) p_reg1 0xDAC8 0x00C8.
(* xbyak_mnemonic.h:384 *)
Definition i_fcmove_ff (p_reg1 : Reg) (p_reg2 : Reg) : E unit :=
  opFpuFpu p_reg1 p_reg2 0xDAC8 0x00C8.
(* xbyak_mnemonic.h:385 *)
Definition i_fcmovnb_f (p_reg1 : Reg) : E unit :=
  opFpuFpu (Fpu 0) p_reg1 0xDBC0 0x00C0.
(* xbyak_mnemonic.h:386 *)
Definition i_fcmovnb_ff (p_reg1 : Reg) (p_reg2 : Reg) : E unit :=
  opFpuFpu p_reg1 p_reg2 0xDBC0 0x00C0.
(* xbyak_mnemonic.h:387 *)
Definition i_fcmovnbe_f (p_reg1 : Reg) : E unit :=
  opFpuFpu (Fpu 0) p_reg1 0xDBD0 0x00D0.
(* xbyak_mnemonic.h:388 *)
Definition i_fcmovnbe_ff (p_reg1 : Reg) (p_reg2 : Reg) : E unit :=
  opFpuFpu p_reg1 p_reg2 0xDBD0 0x00D0.
(* xbyak_mnemonic.h:389 *)
Definition i_fcmovne_f (p_reg1 : Reg) : E unit :=
  opFpuFpu (Fpu 0) p_reg1 0xDBC8 0x00C8.
(* xbyak_mnemonic.h:390 *)
Definition i_fcmovne_ff (p_reg1 : Reg) (p_reg2 : Reg) : E unit :=
  opFpuFpu p_reg1 p_reg2 0xDBC8 0x00C8.
(* xbyak_mnemonic.h:391 *)
Definition i_fcmovnu_f (p_reg1 : Reg) : E unit :=
  opFpuFpu (Fpu 0) p_reg1 0xDBD8 0x00D8.
(* xbyak_mnemonic.h:392 *)
Definition i_fcmovnu_ff (p_reg1 : Reg) (p_reg2 : Reg) : E unit :=
  opFpuFpu p_reg1 p_reg2 0xDBD8 0x00D8.
(* xbyak_mnemonic.h:393 *)
Definition i_fcmovu_f (p_reg1 : Reg) : E unit :=
  opFpuFpu (Fpu 0) p_reg1 0xDAD8 0x00D8.
(* xbyak_mnemonic.h:394 *)
Definition i_fcmovu_ff (p_reg1 : Reg) (p_reg2 : Reg) : E unit :=
  opFpuFpu p_reg1 p_reg2 0xDAD8 0x00D8.
(* xbyak_mnemonic.h:395 *)
Definition i_fcom_none : E unit :=
  db 0xD8 ;;; db 0xD1.
(* xbyak_mnemonic.h:396 *)
Definition i_fcom_a (p_addr : Address) : E unit :=
  opFpuMem p_addr 0x00 0xD8 0xDC 2 0.
(* xbyak_mnemonic.h:397 *)
Definition i_fcom_f (p_reg : Reg) : E unit :=
  opFpu p_reg 0xD8 0xD0.
(* xbyak_mnemonic.h:398 *)
Definition i_fcomi_f (p_reg1 : Reg) : E unit :=
  opFpuFpu (Fpu 0) p_reg1 0xDBF0 0x00F0.
(* xbyak_mnemonic.h:399 *)
Definition i_fcomi_ff (p_reg1 : Reg) (p_reg2 : Reg) : E unit :=
  opFpuFpu p_reg1 p_reg2 0xDBF0 0x00F0.
(* xbyak_mnemonic.h:400 *)
Definition i_fcomip_f (p_reg1 : Reg) : E unit :=
  opFpuFpu (Fpu 0) p_reg1 0xDFF0 0x00F0.
(* xbyak_mnemonic.h:401 *)
Definition i_fcomip_ff (p_reg1 : Reg) (p_reg2 : Reg) : E unit :=
  opFpuFpu p_reg1 p_reg2 0xDFF0 0x00F0.
(* xbyak_mnemonic.h:402 *)
Definition i_fcomp_none : E unit :=
  db 0xD8 ;;; db 0xD9.
(* xbyak_mnemonic.h:403 *)
Definition i_fcomp_a (p_addr : Address) : E unit :=
  opFpuMem p_addr 0x00 0xD8 0xDC 3 0.
(* xbyak_mnemonic.h:404 *)
Definition i_fcomp_f (p_reg : Reg) : E unit :=
  opFpu p_reg 0xD8 0xD8.
(* xbyak_mnemonic.h:405 *)
Definition i_fcompp : E unit :=
  db 0xDE ;;; db 0xD9.
(* xbyak_mnemonic.h:406 *)
Definition i_fcos : E unit :=
  db 0xD9 ;;; db 0xFF.
(* xbyak_mnemonic.h:407 *)
Definition i_fdecstp : E unit :=
  db 0xD9 ;;; db 0xF6.
(* xbyak_mnemonic.h:408 *)
Definition i_fdiv_a (p_addr : Address) : E unit :=
  opFpuMem p_addr 0x00 0xD8 0xDC 6 0.
(* xbyak_mnemonic.h:409 *)
Definition i_fdiv_f (p_reg1 : Reg) : E unit :=
  opFpuFpu (Fpu 0) p_reg1 0xD8F0 0xDCF8.
(* xbyak_mnemonic.h:410 *)
Definition i_fdiv_ff (p_reg1 : Reg) (p_reg2 : Reg) : E unit :=
  opFpuFpu p_reg1 p_reg2 0xD8F0 0xDCF8.
(* xbyak_mnemonic.h:411 *)
Definition i_fdivp_none : E unit :=
  db 0xDE ;;; db 0xF9.
(* xbyak_mnemonic.h:412 *)
Definition i_fdivp_f (p_reg1 : Reg) : E unit :=
  opFpuFpu p_reg1 (Fpu 0) 0x0000 0xDEF8.
(* xbyak_mnemonic.h:413 *)
Definition i_fdivp_ff (p_reg1 : Reg) (p_reg2 : Reg) : E unit :=
  opFpuFpu p_reg1 p_reg2 0x0000 0xDEF8.
(* xbyak_mnemonic.h:414 *)
Definition i_fdivr_a (p_addr : Address) : E unit :=
  opFpuMem p_addr 0x00 0xD8 0xDC 7 0.
(* xbyak_mnemonic.h:415 *)
Definition i_fdivr_f (p_reg1 : Reg) : E unit :=
  opFpuFpu (Fpu 0) p_reg1 0xD8F8 0xDCF0.
(* xbyak_mnemonic.h:416 *)
Definition i_fdivr_ff (p_reg1 : Reg) (p_reg2 : Reg) : E unit :=
  opFpuFpu p_reg1 p_reg2 0xD8F8 0xDCF0.
(* xbyak_mnemonic.h:417 *)
Definition i_fdivrp_none : E unit :=
  db 0xDE ;;; db 0xF1.
(* xbyak_mnemonic.h:418 *)
Definition i_fdivrp_f (p_reg1 : Reg) : E unit :=
  opFpuFpu p_reg1 (Fpu 0) 0x0000 0xDEF0.
(* xbyak_mnemonic.h:419 *)
Definition i_fdivrp_ff (p_reg1 : Reg) (p_reg2 : Reg) : E unit :=
  opFpuFpu p_reg1 p_reg2 0x0000 0xDEF0.
(* xbyak_mnemonic.h:420 *)
Definition i_ffree (p_reg : Reg) : E unit :=
  opFpu p_reg 0xDD 0xC0.
(* xbyak_mnemonic.h:421 *)
Definition i_fiadd (p_addr : Address) : E unit :=
  opFpuMem p_addr 0xDE 0xDA 0x00 0 0.
(* xbyak_mnemonic.h:422 *)
Definition i_ficom (p_addr : Address) : E unit :=
  opFpuMem p_addr 0xDE 0xDA 0x00 2 0.
(* xbyak_mnemonic.h:423 *)
Definition i_ficomp (p_addr : Address) : E unit :=
  opFpuMem p_addr 0xDE 0xDA 0x00 3 0.
(* xbyak_mnemonic.h:424 *)
Definition i_fidiv (p_addr : Address) : E unit :=
  opFpuMem p_addr 0xDE 0xDA 0x00 6 0.
(* xbyak_mnemonic.h:425 *)
Definition i_fidivr (p_addr : Address) : E unit :=
  opFpuMem p_addr 0xDE 0xDA 0x00 7 0.
(* xbyak_mnemonic.h:426 *)
Definition i_fild (p_addr : Address) : E unit :=
  opFpuMem p_addr 0xDF 0xDB 0xDF 0 5.
(* xbyak_mnemonic.h:427 *)
Definition i_fimul (p_addr : Address) : E unit :=
  opFpuMem p_addr 0xDE 0xDA 0x00 1 0.
(* xbyak_mnemonic.h:428 *)
Definition i_fincstp : E unit :=
  db 0xD9 ;;; db 0xF7.
(* xbyak_mnemonic.h:429 *)
Definition i_finit : E unit :=
  db 0x9B ;;; db 0xDB ;;; db 0xE3.
(* xbyak_mnemonic.h:430 *)
Definition i_fist (p_addr : Address) : E unit :=
  opFpuMem p_addr 0xDF 0xDB 0x00 2 0.
(* xbyak_mnemonic.h:431 *)
Definition i_fistp (p_addr : Address) : E unit :=
  opFpuMem p_addr 0xDF 0xDB 0xDF 3 7.
(* xbyak_mnemonic.h:432 *)
Definition i_fisttp (p_addr : Address) : E unit :=
  opFpuMem p_addr 0xDF 0xDB 0xDD 1 0.
(* xbyak_mnemonic.h:433 *)
Definition i_fisub (p_addr : Address) : E unit :=
  opFpuMem p_addr 0xDE 0xDA 0x00 4 0.
(* xbyak_mnemonic.h:434 *)
Definition i_fisubr (p_addr : Address) : E unit :=
  opFpuMem p_addr 0xDE 0xDA 0x00 5 0.
(* xbyak_mnemonic.h:435 *)
Definition i_fld_a (p_addr : Address) : E unit :=
  opFpuMem p_addr 0x00 0xD9 0xDD 0 0.
(* xbyak_mnemonic.h:436 *)
Definition i_fld_f (p_reg : Reg) : E unit :=
  opFpu p_reg 0xD9 0xC0.
(* xbyak_mnemonic.h:437 *)
Definition i_fld1 : E unit :=
  db 0xD9 ;;; db 0xE8.
(* xbyak_mnemonic.h:438 *)
Definition i_fldcw (p_addr : Address) : E unit :=
  opMR p_addr (Reg32 5) 0 0xD9 0 NONE.
(* xbyak_mnemonic.h:439 *)
Definition i_fldenv (p_addr : Address) : E unit :=
  opMR p_addr (Reg32 4) 0 0xD9 0 NONE.
(* xbyak_mnemonic.h:440 *)
Definition i_fldl2e : E unit :=
  db 0xD9 ;;; db 0xEA.
(* xbyak_mnemonic.h:441 *)
Definition i_fldl2t : E unit :=
  db 0xD9 ;;; db 0xE9.
(* xbyak_mnemonic.h:442 *)
Definition i_fldlg2 : E unit :=
  db 0xD9 ;;; db 0xEC.
(* xbyak_mnemonic.h:443 *)
Definition i_fldln2 : E unit :=
  db 0xD9 ;;; db 0xED.
(* xbyak_mnemonic.h:444 *)
Definition i_fldpi : E unit :=
  db 0xD9 ;;; db 0xEB.
(* xbyak_mnemonic.h:445 *)
Definition i_fldz : E unit :=
  db 0xD9 ;;; db 0xEE.
(* xbyak_mnemonic.h:446 *)
Definition i_fmul_a (p_addr : Address) : E unit :=
  opFpuMem p_addr 0x00 0xD8 0xDC 1 0.
(* xbyak_mnemonic.h:447 *)
Definition i_fmul_f (p_reg1 : Reg) : E unit :=
  opFpuFpu (Fpu 0) p_reg1 0xD8C8 0xDCC8.
(* xbyak_mnemonic.h:448 *)
Definition i_fmul_ff (p_reg1 : Reg) (p_reg2 : Reg) : E unit :=
  opFpuFpu p_reg1 p_reg2 0xD8C8 0xDCC8.
(* xbyak_mnemonic.h:449 *)
Definition i_fmulp_none : E unit :=
  db 0xDE ;;; db 0xC9.
(* xbyak_mnemonic.h:450 *)
Definition i_fmulp_f (p_reg1 : Reg) : E unit :=
  opFpuFpu p_reg1 (Fpu 0) 0x0000 0xDEC8.
(* xbyak_mnemonic.h:451 *)
Definition i_fmulp_ff (p_reg1 : Reg) (p_reg2 : Reg) : E unit :=
  opFpuFpu p_reg1 p_reg2 0x0000 0xDEC8.
(* xbyak_mnemonic.h:452 *)
Definition i_fnclex : E unit :=
  db 0xDB ;;; db 0xE2.
(* xbyak_mnemonic.h:453 *)
Definition i_fninit : E unit :=
  db 0xDB ;;; db 0xE3.
(* xbyak_mnemonic.h:454 *)
Definition i_fnop : E unit :=
  db 0xD9 ;;; db 0xD0.
(* xbyak_mnemonic.h:455 *)
Definition i_fnsave (p_addr : Address) : E unit :=
  opMR p_addr (Reg32 6) 0 0xDD 0 NONE.
(* xbyak_mnemonic.h:456 *)
Definition i_fnstcw (p_addr : Address) : E unit :=
  opMR p_addr (Reg32 7) 0 0xD9 0 NONE.
(* xbyak_mnemonic.h:457 *)
Definition i_fnstenv (p_addr : Address) : E unit :=
  opMR p_addr (Reg32 6) 0 0xD9 0 NONE.
(* xbyak_mnemonic.h:458 *)
Definition i_fnstsw_a (p_addr : Address) : E unit :=
  opMR p_addr (Reg32 7) 0 0xDD 0 NONE.
(* xbyak_mnemonic.h:459 *)
Definition i_fnstsw_w (p_r : Reg) : E unit :=
  fn tt (if (negb ((getIdx p_r) =? 0)) then throw ERR_BAD_PARAMETER else db 0xDF ;;; db 0xE0).
(* xbyak_mnemonic.h:460 *)
Definition i_fpatan : E unit :=
  db 0xD9 ;;; db 0xF3.
(* xbyak_mnemonic.h:461 *)
Definition i_fprem : E unit :=
  db 0xD9 ;;; db 0xF8.
(* xbyak_mnemonic.h:462 *)
Definition i_fprem1 : E unit :=
  db 0xD9 ;;; db 0xF5.
(* xbyak_mnemonic.h:463 *)
Definition i_fptan : E unit :=
  db 0xD9 ;;; db 0xF2.
(* xbyak_mnemonic.h:464 *)
Definition i_frndint : E unit :=
  db 0xD9 ;;; db 0xFC.
(* xbyak_mnemonic.h:465 *)
Definition i_frstor (p_addr : Address) : E unit :=
  opMR p_addr (Reg32 4) 0 0xDD 0 NONE.
(* xbyak_mnemonic.h:466 *)
Definition i_fsave (p_addr : Address) : E unit :=
  db 0x9B ;;; opMR p_addr (Reg32 6) 0 0xDD 0 NONE.
(* xbyak_mnemonic.h:467 *)
Definition i_fscale : E unit :=
  db 0xD9 ;;; db 0xFD.
(* xbyak_mnemonic.h:468 *)
Definition i_fsin : E unit :=
  db 0xD9 ;;; db 0xFE.
(* xbyak_mnemonic.h:469 *)
Definition i_fsincos : E unit :=
  db 0xD9 ;;; db 0xFB.
(* xbyak_mnemonic.h:470 *)
Definition i_fsqrt : E unit :=
  db 0xD9 ;;; db 0xFA.
(* xbyak_mnemonic.h:471 *)
Definition i_fst_a (p_addr : Address) : E unit :=
  opFpuMem p_addr 0x00 0xD9 0xDD 2 0.
(* xbyak_mnemonic.h:472 *)
Definition i_fst_f (p_reg : Reg) : E unit :=
  opFpu p_reg 0xDD 0xD0.
(* xbyak_mnemonic.h:473 *)
Definition i_fstcw (p_addr : Address) : E unit :=
  db 0x9B ;;; opMR p_addr (Reg32 7) 0 0xD9 0 NONE.
(* xbyak_mnemonic.h:474 *)
Definition i_fstenv (p_addr : Address) : E unit :=
  db 0x9B ;;; opMR p_addr (Reg32 6) 0 0xD9 0 NONE.
(* xbyak_mnemonic.h:475 *)
Definition i_fstp_a (p_addr : Address) : E unit :=
  opFpuMem p_addr 0x00 0xD9 0xDD 3 0.
(* xbyak_mnemonic.h:476 *)
Definition i_fstp_f (p_reg : Reg) : E unit :=
  opFpu p_reg 0xDD 0xD8.
(* xbyak_mnemonic.h:477 *)
Definition i_fstsw_a (p_addr : Address) : E unit :=
  db 0x9B ;;; opMR p_addr (Reg32 7) 0 0xDD 0 NONE.
(* xbyak_mnemonic.h:478 *)
Definition i_fstsw_w (p_r : Reg) : E unit :=
  fn tt (if (negb ((getIdx p_r) =? 0)) then throw ERR_BAD_PARAMETER else db 0x9B ;;; db 0xDF ;;; db 0xE0).
(* xbyak_mnemonic.h:479 *)
Definition i_fsub_a (p_addr : Address) : E unit :=
  opFpuMem p_addr 0x00 0xD8 0xDC 4 0.
(* xbyak_mnemonic.h:480 *)
Definition i_fsub_f (p_reg1 : Reg) : E unit :=
  opFpuFpu (Fpu 0) p_reg1 0xD8E0 0xDCE8.
(* xbyak_mnemonic.h:481 *)
Definition i_fsub_ff (p_reg1 : Reg) (p_reg2 : Reg) : E unit :=
  opFpuFpu p_reg1 p_reg2 0xD8E0 0xDCE8.
(* xbyak_mnemonic.h:482 *)
Definition i_fsubp_none : E unit :=
  db 0xDE ;;; db 0xE9.
(* xbyak_mnemonic.h:483 *)
Definition i_fsubp_f (p_reg1 : Reg) : E unit :=
  opFpuFpu p_reg1 (Fpu 0) 0x0000 0xDEE8.
(* xbyak_mnemonic.h:484 *)
Definition i_fsubp_ff (p_reg1 : Reg) (p_reg2 : Reg) : E unit :=
  opFpuFpu p_reg1 p_reg2 0x0000 0xDEE8.
(* xbyak_mnemonic.h:485 *)
Definition i_fsubr_a (p_addr : Address) : E unit :=
  opFpuMem p_addr 0x00 0xD8 0xDC 5 0.
(* xbyak_mnemonic.h:486 *)
Definition i_fsubr_f (p_reg1 : Reg) : E unit :=
  opFpuFpu (Fpu 0) p_reg1 0xD8E8 0xDCE0.
(* xbyak_mnemonic.h:487 *)
Definition i_fsubr_ff (p_reg1 : Reg) (p_reg2 : Reg) : E unit :=
  opFpuFpu p_reg1 p_reg2 0xD8E8 0xDCE0.
(* xbyak_mnemonic.h:488 *)
Definition i_fsubrp_none : E unit :=
  db 0xDE ;;; db 0xE1.
(* xbyak_mnemonic.h:489 *)
Definition i_fsubrp_f (p_reg1 : Reg) : E unit :=
  opFpuFpu p_reg1 (Fpu 0) 0x0000 0xDEE0.
(* xbyak_mnemonic.h:490 *)
Definition i_fsubrp_ff (p_reg1 : Reg) (p_reg2 : Reg) : E unit :=
  opFpuFpu p_reg1 p_reg2 0x0000 0xDEE0.
(* xbyak_mnemonic.h:491 *)
Definition i_ftst : E unit :=
  db 0xD9 ;;; db 0xE4.
(* xbyak_mnemonic.h:492 *)
Definition i_fucom_none : E unit :=
  db 0xDD ;;; db 0xE1.
(* xbyak_mnemonic.h:493 *)
Definition i_fucom_f (p_reg : Reg) : E unit :=
  opFpu p_reg 0xDD 0xE0.
(* xbyak_mnemonic.h:494 *)
Definition i_fucomi_f (p_reg1 : Reg) : E unit :=
  opFpuFpu (Fpu 0) p_reg1 0xDBE8 0x00E8.
(* xbyak_mnemonic.h:495 *)
Definition i_fucomi_ff (p_reg1 : Reg) (p_reg2 : Reg) : E unit :=
  opFpuFpu p_reg1 p_reg2 0xDBE8 0x00E8.
(* xbyak_mnemonic.h:496 *)
Definition i_fucomip_f (p_reg1 : Reg) : E unit :=
  opFpuFpu (Fpu 0) p_reg1 0xDFE8 0x00E8.
(* xbyak_mnemonic.h:497 *)
Definition i_fucomip_ff (p_reg1 : Reg) (p_reg2 : Reg) : E unit :=
  opFpuFpu p_reg1 p_reg2 0xDFE8 0x00E8.
(* xbyak_mnemonic.h:498 *)
Definition i_fucomp_none : E unit :=
  db 0xDD ;;; db 0xE9.
(* xbyak_mnemonic.h:499 *)
Definition i_fucomp_f (p_reg : Reg) : E unit :=
  opFpu p_reg 0xDD 0xE8.
(* xbyak_mnemonic.h:500 *)
Definition i_fucompp : E unit :=
  db 0xDA ;;; db 0xE9.
(* xbyak_mnemonic.h:501 *)
Definition i_fwait : E unit :=
  db 0x9B.
(* xbyak_mnemonic.h:502 *)
Definition i_fxam : E unit :=
  db 0xD9 ;;; db 0xE5.
(* xbyak_mnemonic.h:503 *)
Definition i_fxch_none : E unit :=
  db 0xD9 ;;; db 0xC9.
(* xbyak_mnemonic.h:504 *)
Definition i_fxch_f (p_reg : Reg) : E unit :=
  opFpu p_reg 0xD9 0xC8.
(* xbyak_mnemonic.h:505 *)
Definition i_fxrstor (p_addr : Address) : E unit :=
  opMR p_addr (Reg32 1) T_0F 0xAE 0 NONE.
(* xbyak_mnemonic.h:506 *)
Definition i_fxtract : E unit :=
  db 0xD9 ;;; db 0xF4.
(* xbyak_mnemonic.h:507 *)
Definition i_fyl2x : E unit :=
  db 0xD9 ;;; db 0xF1.
(* xbyak_mnemonic.h:508 *)
Definition i_fyl2xp1 : E unit :=
  db 0xD9 ;;; db 0xF9.
(* xbyak_mnemonic.h:509 *)
Definition i_gf2p8affineinvqb (p_xmm : Reg) (p_op : Operand) (p_imm : Z) : E unit :=
  let p_imm := s32 p_imm in opSSE p_xmm p_op (T_66 ||| T_0F3A) 0xCF (Some isXMM_XMMorMEM) (w8 p_imm).
(* xbyak_mnemonic.h:510 *)
Definition i_gf2p8affineqb (p_xmm : Reg) (p_op : Operand) (p_imm : Z) : E unit :=
  let p_imm := s32 p_imm in opSSE p_xmm p_op (T_66 ||| T_0F3A) 0xCE (Some isXMM_XMMorMEM) (w8 p_imm).
(* xbyak_mnemonic.h:511 *)
Definition i_gf2p8mulb (p_xmm : Reg) (p_op : Operand) : E unit :=
  opSSE p_xmm p_op (T_66 ||| T_0F38) 0xCF (Some isXMM_XMMorMEM) NONE.
(* xbyak_mnemonic.h:512 *)
Definition i_haddpd (p_xmm : Reg) (p_op : Operand) : E unit :=
  opSSE p_xmm p_op ((T_66 ||| T_0F) ||| T_YMM) 0x7C (Some isXMM_XMMorMEM) NONE.
(* xbyak_mnemonic.h:513 *)
Definition i_haddps (p_xmm : Reg) (p_op : Operand) : E unit :=
  opSSE p_xmm p_op ((T_F2 ||| T_0F) ||| T_YMM) 0x7C (Some isXMM_XMMorMEM) NONE.
(* xbyak_mnemonic.h:514 *)
Definition i_hlt : E unit :=
  db 0xF4.
(* xbyak_mnemonic.h:515 *)
Definition i_hsubpd (p_xmm : Reg) (p_op : Operand) : E unit :=
  opSSE p_xmm p_op ((T_66 ||| T_0F) ||| T_YMM) 0x7D (Some isXMM_XMMorMEM) NONE.
(* xbyak_mnemonic.h:516 *)
Definition i_hsubps (p_xmm : Reg) (p_op : Operand) : E unit :=
  opSSE p_xmm p_op ((T_F2 ||| T_0F) ||| T_YMM) 0x7D (Some isXMM_XMMorMEM) NONE.
(* xbyak_mnemonic.h:517 *)
Definition i_idiv (p_op : Operand) : E unit :=
  opRext p_op 0 7 ((T_APX ||| T_NF) ||| T_CODE1_IF1) 0xF6 false 0 None.
(* xbyak_mnemonic.h:518 *)
Definition i_imul_o (p_op : Operand) : E unit :=
  opRext p_op 0 5 ((T_APX ||| T_NF) ||| T_CODE1_IF1) 0xF6 false 0 None.
(* xbyak_mnemonic.h:519 *)
Definition i_imul_rro (p_d : Reg) (p_reg : Reg) (p_op : Operand) : E unit :=
  opROO p_d p_op (OReg p_reg) ((T_APX ||| T_ND1) ||| T_NF) 0xAF 0 NONE ;;; ret tt.
(* xbyak_mnemonic.h:520 *)
Definition i_imul_ro (p_reg : Reg) (p_op : Operand) : E unit :=
  done <- opROO noReg p_op (OReg p_reg) (T_APX ||| T_NF) 0xAF 0 NONE ;; if (done : bool) then ret tt else opRO p_reg p_op T_0F 0xAF ((kind_ p_reg) =? (kind_ (ob p_op))) 0.
(* xbyak_mnemonic.h:521 *)
Definition i_in__rr (p_a : Reg) (p_d : Reg) : E unit :=
  opInOut p_a p_d 0xEC.
(* xbyak_mnemonic.h:522 *)
Definition i_in__ri (p_a : Reg) (p_v : Z) : E unit :=
  let p_v := w8 p_v in opInOutImm p_a 0xE4 p_v.
(* xbyak_mnemonic.h:523 *)
Definition i_inc_o (p_op : Operand) : E unit :=
  opIncDec noReg p_op 0.
(* xbyak_mnemonic.h:524 *)
Definition i_inc_ro (p_d : Reg) (p_op : Operand) : E unit :=
  opIncDec p_d p_op 0.
(* xbyak_mnemonic.h:525 *)
Definition i_insertps (p_xmm : Reg) (p_op : Operand) (p_imm : Z) : E unit :=
  let p_imm := w8 p_imm in opSSE p_xmm p_op (T_66 ||| T_0F3A) 0x21 (Some isXMM_XMMorMEM) p_imm.
(* xbyak_mnemonic.h:526 *)
Definition i_int3 : E unit :=
  db 0xCC.
(* xbyak_mnemonic.h:527 *)
Definition i_int_ (p_x : Z) : E unit :=
  let p_x := w8 p_x in db 0xCD ;;; db p_x.
(* xbyak_mnemonic.h:648 *)
Definition i_lahf : E unit :=
  db 0x9F.
(* xbyak_mnemonic.h:649 *)
Definition i_lddqu (p_xmm : Reg) (p_addr : Address) : E unit :=
  opSSE p_xmm (OMem p_addr) (T_F2 ||| T_0F) 0xF0 None NONE.
(* xbyak_mnemonic.h:650 *)
Definition i_ldmxcsr (p_addr : Address) : E unit :=
  opMR p_addr (Reg32 2) T_0F 0xAE 0 NONE.
(* xbyak_mnemonic.h:651 *)
Definition i_lea (p_reg : Reg) (p_addr : Address) : E unit :=
  fn tt (if (negb (isBit p_reg (16 ||| i32e))) then throw ERR_BAD_SIZE_OF_REGISTER else opMR p_addr p_reg 0 0x8D 0 NONE).
(* xbyak_mnemonic.h:652 *)
Definition i_leave : E unit :=
  db 0xC9.
(* xbyak_mnemonic.h:653 *)
Definition i_lfence : E unit :=
  db 0x0F ;;; db 0xAE ;;; db 0xE8.
(* xbyak_mnemonic.h:654 *)
Definition i_lfs (p_reg : Reg) (p_addr : Address) : E unit :=
  opLoadSeg p_addr p_reg T_0F 0xB4.
(* xbyak_mnemonic.h:655 *)
Definition i_lgs (p_reg : Reg) (p_addr : Address) : E unit :=
  opLoadSeg p_addr p_reg T_0F 0xB5.
(* xbyak_mnemonic.h:656 *)
Definition i_lock : E unit :=
  db 0xF0.
(* xbyak_mnemonic.h:657 *)
Definition i_lodsb : E unit :=
  db 0xAC.
(* xbyak_mnemonic.h:658 *)
Definition i_lodsd : E unit :=
  db 0xAD.
(* xbyak_mnemonic.h:659 *)
Definition i_lodsw : E unit :=
  db 0x66 ;;; db 0xAD.
(* xbyak_mnemonic.h:669 *)
Definition i_lss (p_reg : Reg) (p_addr : Address) : E unit :=
  opLoadSeg p_addr p_reg T_0F 0xB2.
(* xbyak_mnemonic.h:670 *)
Definition i_lzcnt (p_reg : Reg) (p_op : Operand) : E unit :=
  done <- opROO noReg p_op (OReg p_reg) (T_APX ||| T_NF) 0xF5 0 NONE ;; if (done : bool) then ret tt else opCnt p_reg p_op 0xBD.
(* xbyak_mnemonic.h:671 *)
Definition i_maskmovdqu (p_reg1 : Reg) (p_reg2 : Reg) : E unit :=
  opSSE p_reg1 (OReg p_reg2) (T_66 ||| T_0F) 0xF7 None NONE.
(* xbyak_mnemonic.h:672 *)
Definition i_maskmovq (p_reg1 : Reg) (p_reg2 : Reg) : E unit :=
  opSSE p_reg1 (OReg p_reg2) T_0F 0xF7 None NONE.
(* xbyak_mnemonic.h:673 *)
Definition i_maxpd (p_xmm : Reg) (p_op : Operand) : E unit :=
  opSSE p_xmm p_op (T_0F ||| T_66) 0x5F (Some isXMM_XMMorMEM) NONE.
(* xbyak_mnemonic.h:674 *)
Definition i_maxps (p_xmm : Reg) (p_op : Operand) : E unit :=
  opSSE p_xmm p_op T_0F 0x5F (Some isXMM_XMMorMEM) NONE.
(* xbyak_mnemonic.h:675 *)
Definition i_maxsd (p_xmm : Reg) (p_op : Operand) : E unit :=
  opSSE p_xmm p_op (T_0F ||| T_F2) 0x5F (Some isXMM_XMMorMEM) NONE.
(* xbyak_mnemonic.h:676 *)
Definition i_maxss (p_xmm : Reg) (p_op : Operand) : E unit :=
  opSSE p_xmm p_op (T_0F ||| T_F3) 0x5F (Some isXMM_XMMorMEM) NONE.
(* xbyak_mnemonic.h:677 *)
Definition i_mfence : E unit :=
  db 0x0F ;;; db 0xAE ;;; db 0xF0.
(* xbyak_mnemonic.h:678 *)
Definition i_minpd (p_xmm : Reg) (p_op : Operand) : E unit :=
  opSSE p_xmm p_op (T_0F ||| T_66) 0x5D (Some isXMM_XMMorMEM) NONE.
(* xbyak_mnemonic.h:679 *)
Definition i_minps (p_xmm : Reg) (p_op : Operand) : E unit :=
  opSSE p_xmm p_op T_0F 0x5D (Some isXMM_XMMorMEM) NONE.
(* xbyak_mnemonic.h:680 *)
Definition i_minsd (p_xmm : Reg) (p_op : Operand) : E unit :=
  opSSE p_xmm p_op (T_0F ||| T_F2) 0x5D (Some isXMM_XMMorMEM) NONE.
(* xbyak_mnemonic.h:681 *)
Definition i_minss (p_xmm : Reg) (p_op : Operand) : E unit :=
  opSSE p_xmm p_op (T_0F ||| T_F3) 0x5D (Some isXMM_XMMorMEM) NONE.
(* xbyak_mnemonic.h:682 *)
Definition i_monitor : E unit :=
  db 0x0F ;;; db 0x01 ;;; db 0xC8.
(* xbyak_mnemonic.h:683 *)
Definition i_monitorx : E unit :=
  db 0x0F ;;; db 0x01 ;;; db 0xFA.
(* xbyak_mnemonic.h:684 *)
Definition i_movapd_ax (p_addr : Address) (p_xmm : Reg) : E unit :=
  opSSE p_xmm (OMem p_addr) (T_0F ||| T_66) 0x29 None NONE.
(* xbyak_mnemonic.h:685 *)
Definition i_movapd_xo (p_xmm : Reg) (p_op : Operand) : E unit :=
  opMMX p_xmm p_op 0x28 T_0F T_66 NONE.
(* xbyak_mnemonic.h:686 *)
Definition i_movaps_ax (p_addr : Address) (p_xmm : Reg) : E unit :=
  opSSE p_xmm (OMem p_addr) (T_0F ||| T_NONE) 0x29 None NONE.
(* xbyak_mnemonic.h:687 *)
Definition i_movaps_xo (p_xmm : Reg) (p_op : Operand) : E unit :=
  opMMX p_xmm p_op 0x28 T_0F T_NONE NONE.
(* xbyak_mnemonic.h:688 *)
Definition i_movbe_ar (p_addr : Address) (p_reg : Reg) : E unit :=
  opMR p_addr p_reg T_0F38 0xF1 T_APX 0x61.
(* xbyak_mnemonic.h:689 *)
Definition i_movbe_ra (p_reg : Reg) (p_addr : Address) : E unit :=
  opMR p_addr p_reg T_0F38 0xF0 T_APX 0x60.
(* xbyak_mnemonic.h:690 *)
Definition i_movd_mo (p_mmx : Reg) (p_op : Operand) : E unit :=
  fn tt (if (negb ((isMEM p_op) || (isREGb (ob p_op) 32))) then throw ERR_BAD_COMBINATION else (when (isXMM p_mmx) do (db 0x66)) ;;; opSSE p_mmx p_op (T_0F ||| T_ALLOW_DIFF_SIZE) 0x6E None NONE).
(* xbyak_mnemonic.h:691 *)
Definition i_movd_om (p_op : Operand) (p_mmx : Reg) : E unit :=
  fn tt (if (negb ((isMEM p_op) || (isREGb (ob p_op) 32))) then throw ERR_BAD_COMBINATION else (when (isXMM p_mmx) do (db 0x66)) ;;; opSSE p_mmx p_op (T_0F ||| T_ALLOW_DIFF_SIZE) 0x7E None NONE).
(* xbyak_mnemonic.h:692 *)
Definition i_movddup (p_xmm : Reg) (p_op : Operand) : E unit :=
  opSSE p_xmm p_op ((((((((T_DUP ||| T_F2) ||| T_0F) ||| T_EW1) ||| T_YMM) ||| T_EVEX) ||| T_ER_X) ||| T_ER_Y) ||| T_ER_Z) 0x12 (Some isXMM_XMMorMEM) NONE.
(* xbyak_mnemonic.h:693 *)
Definition i_movdir64b (p_reg : Reg) (p_addr : Address) : E unit :=
  t0 <- cvt32 p_reg ;; opMR p_addr t0 (T_66 ||| T_0F38) 0xF8 (T_APX ||| T_66) NONE.
(* xbyak_mnemonic.h:694 *)
Definition i_movdiri (p_addr : Address) (p_reg : Reg) : E unit :=
  opMR p_addr p_reg T_0F38 0xF9 T_APX NONE.
(* xbyak_mnemonic.h:695 *)
Definition i_movdq2q (p_mmx : Reg) (p_xmm : Reg) : E unit :=
  opSSE p_mmx (OReg p_xmm) (T_F2 ||| T_0F) 0xD6 None NONE.
(* xbyak_mnemonic.h:696 *)
Definition i_movdqa_ax (p_addr : Address) (p_xmm : Reg) : E unit :=
  opSSE p_xmm (OMem p_addr) (T_0F ||| T_66) 0x7F None NONE.
(* xbyak_mnemonic.h:697 *)
Definition i_movdqa_xo (p_xmm : Reg) (p_op : Operand) : E unit :=
  opMMX p_xmm p_op 0x6F T_0F T_66 NONE.
(* xbyak_mnemonic.h:698 *)
Definition i_movdqu_ax (p_addr : Address) (p_xmm : Reg) : E unit :=
  opSSE p_xmm (OMem p_addr) (T_0F ||| T_F3) 0x7F None NONE.
(* xbyak_mnemonic.h:699 *)
Definition i_movdqu_xo (p_xmm : Reg) (p_op : Operand) : E unit :=
  opMMX p_xmm p_op 0x6F T_0F T_F3 NONE.
(* xbyak_mnemonic.h:700 *)
Definition i_movhlps (p_reg1 : Reg) (p_reg2 : Reg) : E unit :=
  opSSE p_reg1 (OReg p_reg2) T_0F 0x12 None NONE.
(* xbyak_mnemonic.h:701 *)
Definition i_movhpd (p_op1 : Operand) (p_op2 : Operand) : E unit :=
  opMovXMM p_op1 p_op2 (T_66 ||| T_0F) 0x16.
(* xbyak_mnemonic.h:702 *)
Definition i_movhps (p_op1 : Operand) (p_op2 : Operand) : E unit :=
  opMovXMM p_op1 p_op2 T_0F 0x16.
(* xbyak_mnemonic.h:703 *)
Definition i_movlhps (p_reg1 : Reg) (p_reg2 : Reg) : E unit :=
  opSSE p_reg1 (OReg p_reg2) T_0F 0x16 None NONE.
(* xbyak_mnemonic.h:704 *)
Definition i_movlpd (p_op1 : Operand) (p_op2 : Operand) : E unit :=
  opMovXMM p_op1 p_op2 (T_66 ||| T_0F) 0x12.
(* xbyak_mnemonic.h:705 *)
Definition i_movlps (p_op1 : Operand) (p_op2 : Operand) : E unit :=
  opMovXMM p_op1 p_op2 T_0F 0x12.
(* xbyak_mnemonic.h:707 *)
Definition i_movmskps (p_reg : Reg) (p_xmm : Reg) : E unit :=
  opSSE p_reg (OReg p_xmm) T_0F 0x50 None NONE.
(* xbyak_mnemonic.h:706 *)
Definition i_movmskpd (p_reg : Reg) (p_xmm : Reg) : E unit :=
  db 0x66 ;;; i_movmskps p_reg p_xmm.
(* xbyak_mnemonic.h:708 *)
Definition i_movntdq (p_addr : Address) (p_reg : Reg) : E unit :=
  fn tt (if (16 <=? (getIdx p_reg)) then throw ERR_BAD_PARAMETER else opSSE (Reg16 (getIdx p_reg)) (OMem p_addr) T_0F 0xE7 None NONE).
(* xbyak_mnemonic.h:709 *)
Definition i_movntdqa (p_xmm : Reg) (p_addr : Address) : E unit :=
  opSSE p_xmm (OMem p_addr) (T_66 ||| T_0F38) 0x2A None NONE.
(* xbyak_mnemonic.h:710 *)
Definition i_movnti (p_addr : Address) (p_reg : Reg) : E unit :=
  opMR p_addr p_reg T_0F 0xC3 0 NONE.
(* xbyak_mnemonic.h:711 *)
Definition i_movntpd (p_addr : Address) (p_reg : Reg) : E unit :=
  fn tt (if (16 <=? (getIdx p_reg)) then throw ERR_BAD_PARAMETER else opSSE (Reg16 (getIdx p_reg)) (OMem p_addr) T_0F 0x2B None NONE).
(* xbyak_mnemonic.h:712 *)
Definition i_movntps (p_addr : Address) (p_xmm : Reg) : E unit :=
  opSSE (Xmm (getIdx p_xmm)) (OMem p_addr) T_0F 0x2B None NONE.
(* xbyak_mnemonic.h:713 *)
Definition i_movntq (p_addr : Address) (p_mmx : Reg) : E unit :=
  fn tt (if (negb (isMMX p_mmx)) then throw ERR_BAD_COMBINATION else opSSE p_mmx (OMem p_addr) T_0F 0xE7 None NONE).
(* xbyak_mnemonic.h:714 *)
Definition i_movq_am (p_addr : Address) (p_mmx : Reg) : E unit :=
  (when (isXMM p_mmx) do (db 0x66)) ;;; opSSE p_mmx (OMem p_addr) (T_0F ||| T_ALLOW_DIFF_SIZE) (if (isXMM p_mmx) then 0xD6 else 0x7F) None NONE.
(* xbyak_mnemonic.h:715 *)
Definition i_movq_mo (p_mmx : Reg) (p_op : Operand) : E unit :=
  fn tt (if ((negb (isMEM p_op)) && (negb ((kind_ p_mmx) =? (kind_ (ob p_op))))) then throw ERR_BAD_COMBINATION else (when (isXMM p_mmx) do (db 0xF3)) ;;; opSSE p_mmx p_op (T_0F ||| T_ALLOW_DIFF_SIZE) (if (isXMM p_mmx) then 0x7E else 0x6F) None NONE).
(* xbyak_mnemonic.h:716 *)
Definition i_movq2dq (p_xmm : Reg) (p_mmx : Reg) : E unit :=
  opSSE p_xmm (OReg p_mmx) (T_F3 ||| T_0F) 0xD6 None NONE.
(* xbyak_mnemonic.h:717 *)
Definition i_movsb : E unit :=
  db 0xA4.
(* xbyak_mnemonic.h:718 *)
Definition i_movsd_none : E unit :=
  db 0xA5.
(* xbyak_mnemonic.h:719 *)
Definition i_movsd_ax (p_addr : Address) (p_xmm : Reg) : E unit :=
  opSSE p_xmm (OMem p_addr) (T_0F ||| T_F2) 0x11 None NONE.
(* xbyak_mnemonic.h:720 *)
Definition i_movsd_xo (p_xmm : Reg) (p_op : Operand) : E unit :=
  opMMX p_xmm p_op 0x10 T_0F T_F2 NONE.
(* xbyak_mnemonic.h:721 *)
Definition i_movshdup (p_xmm : Reg) (p_op : Operand) : E unit :=
  opSSE p_xmm p_op ((((T_F3 ||| T_0F) ||| T_EW0) ||| T_YMM) ||| T_EVEX) 0x16 (Some isXMM_XMMorMEM) NONE.
(* xbyak_mnemonic.h:722 *)
Definition i_movsldup (p_xmm : Reg) (p_op : Operand) : E unit :=
  opSSE p_xmm p_op ((((T_F3 ||| T_0F) ||| T_EW0) ||| T_YMM) ||| T_EVEX) 0x12 (Some isXMM_XMMorMEM) NONE.
(* xbyak_mnemonic.h:723 *)
Definition i_movss_ax (p_addr : Address) (p_xmm : Reg) : E unit :=
  opSSE p_xmm (OMem p_addr) (T_0F ||| T_F3) 0x11 None NONE.
(* xbyak_mnemonic.h:724 *)
Definition i_movss_xo (p_xmm : Reg) (p_op : Operand) : E unit :=
  opMMX p_xmm p_op 0x10 T_0F T_F3 NONE.
(* xbyak_mnemonic.h:725 *)
Definition i_movsw : E unit :=
  db 0x66 ;;; db 0xA5.
(* xbyak_mnemonic.h:726 *)
Definition i_movsx (p_reg : Reg) (p_op : Operand) : E unit :=
  opMovxx p_reg p_op 0xBE.
(* xbyak_mnemonic.h:727 *)
Definition i_movupd_ax (p_addr : Address) (p_xmm : Reg) : E unit :=
  opSSE p_xmm (OMem p_addr) (T_0F ||| T_66) 0x11 None NONE.
(* xbyak_mnemonic.h:728 *)
Definition i_movupd_xo (p_xmm : Reg) (p_op : Operand) : E unit :=
  opMMX p_xmm p_op 0x10 T_0F T_66 NONE.
(* xbyak_mnemonic.h:729 *)
Definition i_movups_ax (p_addr : Address) (p_xmm : Reg) : E unit :=
  opSSE p_xmm (OMem p_addr) (T_0F ||| T_NONE) 0x11 None NONE.
(* xbyak_mnemonic.h:730 *)
Definition i_movups_xo (p_xmm : Reg) (p_op : Operand) : E unit :=
  opMMX p_xmm p_op 0x10 T_0F T_NONE NONE.
(* xbyak_mnemonic.h:731 *)
Definition i_movzx (p_reg : Reg) (p_op : Operand) : E unit :=
  opMovxx p_reg p_op 0xB6.
(* xbyak_mnemonic.h:732 *)
Definition i_mpsadbw (p_xmm : Reg) (p_op : Operand) (p_imm : Z) : E unit :=
  let p_imm := s32 p_imm in opSSE p_xmm p_op (T_66 ||| T_0F3A) 0x42 (Some isXMM_XMMorMEM) (w8 p_imm).
(* xbyak_mnemonic.h:733 *)
Definition i_mul (p_op : Operand) : E unit :=
  opRext p_op 0 4 ((T_APX ||| T_NF) ||| T_CODE1_IF1) 0xF6 false 0 None.
(* xbyak_mnemonic.h:734 *)
Definition i_mulpd (p_xmm : Reg) (p_op : Operand) : E unit :=
  opSSE p_xmm p_op (T_0F ||| T_66) 0x59 (Some isXMM_XMMorMEM) NONE.
(* xbyak_mnemonic.h:735 *)
Definition i_mulps (p_xmm : Reg) (p_op : Operand) : E unit :=
  opSSE p_xmm p_op T_0F 0x59 (Some isXMM_XMMorMEM) NONE.
(* xbyak_mnemonic.h:736 *)
Definition i_mulsd (p_xmm : Reg) (p_op : Operand) : E unit :=
  opSSE p_xmm p_op (T_0F ||| T_F2) 0x59 (Some isXMM_XMMorMEM) NONE.
(* xbyak_mnemonic.h:737 *)
Definition i_mulss (p_xmm : Reg) (p_op : Operand) : E unit :=
  opSSE p_xmm p_op (T_0F ||| T_F3) 0x59 (Some isXMM_XMMorMEM) NONE.
(* xbyak_mnemonic.h:738 *)
Definition i_mulx (p_r1 : Reg) (p_r2 : Reg) (p_op : Operand) : E unit :=
  opRRO p_r1 p_r2 p_op ((T_APX ||| T_F2) ||| T_0F38) 0xf6 NONE.
(* xbyak_mnemonic.h:739 *)
Definition i_mwait : E unit :=
  db 0x0F ;;; db 0x01 ;;; db 0xC9.
(* xbyak_mnemonic.h:740 *)
Definition i_mwaitx : E unit :=
  db 0x0F ;;; db 0x01 ;;; db 0xFB.
(* xbyak_mnemonic.h:741 *)
Definition i_neg_o (p_op : Operand) : E unit :=
  opRext p_op 0 3 ((T_APX ||| T_NF) ||| T_CODE1_IF1) 0xF6 false 0 None.
(* xbyak_mnemonic.h:742 *)
Definition i_neg_ro (p_d : Reg) (p_op : Operand) : E unit :=
  opROO p_d p_op (OReg (regOf 3 REG (getBit p_d) false)) (((T_APX ||| T_NF) ||| T_CODE1_IF1) ||| T_ND1) 0xF6 0 NONE ;;; ret tt.
(* xbyak_mnemonic.h:743 *)
Definition i_not__o (p_op : Operand) : E unit :=
  opRext p_op 0 2 (T_APX ||| T_CODE1_IF1) 0xF6 false 0 None.
(* xbyak_mnemonic.h:744 *)
Definition i_not__ro (p_d : Reg) (p_op : Operand) : E unit :=
  opROO p_d p_op (OReg (regOf 2 REG (getBit p_d) false)) ((T_APX ||| T_CODE1_IF1) ||| T_ND1) 0xF6 0 NONE ;;; ret tt.
(* xbyak_mnemonic.h:745 *)
Definition i_or__oi (p_op : Operand) (p_imm : Z) : E unit :=
  let p_imm := w32 p_imm in opOI p_op p_imm 0x08 1.
(* xbyak_mnemonic.h:746 *)
Definition i_or__oo (p_op1 : Operand) (p_op2 : Operand) : E unit :=
  opRO_MR p_op1 p_op2 0x08.
(* xbyak_mnemonic.h:747 *)
Definition i_or__roi (p_d : Reg) (p_op : Operand) (p_imm : Z) : E unit :=
  let p_imm := w32 p_imm in opROI p_d p_op p_imm (T_NF ||| T_CODE1_IF1) 1.
(* xbyak_mnemonic.h:748 *)
Definition i_or__roo (p_d : Reg) (p_op1 : Operand) (p_op2 : Operand) : E unit :=
  opROO p_d p_op1 p_op2 (T_NF ||| T_CODE1_IF1) 0x08 0 NONE ;;; ret tt.
(* xbyak_mnemonic.h:749 *)
Definition i_orpd (p_xmm : Reg) (p_op : Operand) : E unit :=
  opSSE p_xmm p_op (T_0F ||| T_66) 0x56 (Some isXMM_XMMorMEM) NONE.
(* xbyak_mnemonic.h:750 *)
Definition i_orps (p_xmm : Reg) (p_op : Operand) : E unit :=
  opSSE p_xmm p_op T_0F 0x56 (Some isXMM_XMMorMEM) NONE.
(* xbyak_mnemonic.h:751 *)
Definition i_out__rr (p_d : Reg) (p_a : Reg) : E unit :=
  opInOut p_a p_d 0xEE.
(* xbyak_mnemonic.h:752 *)
Definition i_out__ir (p_v : Z) (p_a : Reg) : E unit :=
  let p_v := w8 p_v in opInOutImm p_a 0xE6 p_v.
(* xbyak_mnemonic.h:753 *)
Definition i_outsb : E unit :=
  db 0x6E.
(* xbyak_mnemonic.h:754 *)
Definition i_outsd : E unit :=
  db 0x6F.
(* xbyak_mnemonic.h:755 *)
Definition i_outsw : E unit :=
  db 0x66 ;;; db 0x6F.
(* xbyak_mnemonic.h:756 *)
Definition i_pabsb (p_mmx : Reg) (p_op : Operand) : E unit :=
  opMMX p_mmx p_op 0x1C T_0F38 T_66 NONE.
(* xbyak_mnemonic.h:757 *)
Definition i_pabsd (p_mmx : Reg) (p_op : Operand) : E unit :=
  opMMX p_mmx p_op 0x1E T_0F38 T_66 NONE.
(* xbyak_mnemonic.h:758 *)
Definition i_pabsw (p_mmx : Reg) (p_op : Operand) : E unit :=
  opMMX p_mmx p_op 0x1D T_0F38 T_66 NONE.
(* xbyak_mnemonic.h:759 *)
Definition i_packssdw (p_mmx : Reg) (p_op : Operand) : E unit :=
  opMMX p_mmx p_op 0x6B T_0F T_66 NONE.
(* xbyak_mnemonic.h:760 *)
Definition i_packsswb (p_mmx : Reg) (p_op : Operand) : E unit :=
  opMMX p_mmx p_op 0x63 T_0F T_66 NONE.
(* xbyak_mnemonic.h:761 *)
Definition i_packusdw (p_xmm : Reg) (p_op : Operand) : E unit :=
  opSSE p_xmm p_op (T_66 ||| T_0F38) 0x2B (Some isXMM_XMMorMEM) NONE.
(* xbyak_mnemonic.h:762 *)
Definition i_packuswb (p_mmx : Reg) (p_op : Operand) : E unit :=
  opMMX p_mmx p_op 0x67 T_0F T_66 NONE.
(* xbyak_mnemonic.h:763 *)
Definition i_paddb (p_mmx : Reg) (p_op : Operand) : E unit :=
  opMMX p_mmx p_op 0xFC T_0F T_66 NONE.
(* xbyak_mnemonic.h:764 *)
Definition i_paddd (p_mmx : Reg) (p_op : Operand) : E unit :=
  opMMX p_mmx p_op 0xFE T_0F T_66 NONE.
(* xbyak_mnemonic.h:765 *)
Definition i_paddq (p_mmx : Reg) (p_op : Operand) : E unit :=
  opMMX p_mmx p_op 0xD4 T_0F T_66 NONE.
(* xbyak_mnemonic.h:766 *)
Definition i_paddsb (p_mmx : Reg) (p_op : Operand) : E unit :=
  opMMX p_mmx p_op 0xEC T_0F T_66 NONE.
(* xbyak_mnemonic.h:767 *)
Definition i_paddsw (p_mmx : Reg) (p_op : Operand) : E unit :=
  opMMX p_mmx p_op 0xED T_0F T_66 NONE.
(* xbyak_mnemonic.h:768 *)
Definition i_paddusb (p_mmx : Reg) (p_op : Operand) : E unit :=
  opMMX p_mmx p_op 0xDC T_0F T_66 NONE.
(* xbyak_mnemonic.h:769 *)
Definition i_paddusw (p_mmx : Reg) (p_op : Operand) : E unit :=
  opMMX p_mmx p_op 0xDD T_0F T_66 NONE.
(* xbyak_mnemonic.h:770 *)
Definition i_paddw (p_mmx : Reg) (p_op : Operand) : E unit :=
  opMMX p_mmx p_op 0xFD T_0F T_66 NONE.
(* xbyak_mnemonic.h:771 *)
Definition i_palignr (p_mmx : Reg) (p_op : Operand) (p_imm : Z) : E unit :=
  let p_imm := s32 p_imm in opMMX p_mmx p_op 0x0F T_0F3A T_66 (w8 p_imm).
(* xbyak_mnemonic.h:772 *)
Definition i_pand (p_mmx : Reg) (p_op : Operand) : E unit :=
  opMMX p_mmx p_op 0xDB T_0F T_66 NONE.
(* xbyak_mnemonic.h:773 *)
Definition i_pandn (p_mmx : Reg) (p_op : Operand) : E unit :=
  opMMX p_mmx p_op 0xDF T_0F T_66 NONE.
(* xbyak_mnemonic.h:774 *)
Definition i_pause : E unit :=
  db 0xF3 ;;; db 0x90.
(* xbyak_mnemonic.h:775 *)
Definition i_pavgb (p_mmx : Reg) (p_op : Operand) : E unit :=
  opMMX p_mmx p_op 0xE0 T_0F T_66 NONE.
(* xbyak_mnemonic.h:776 *)
Definition i_pavgw (p_mmx : Reg) (p_op : Operand) : E unit :=
  opMMX p_mmx p_op 0xE3 T_0F T_66 NONE.
(* xbyak_mnemonic.h:777 *)
Definition i_pblendvb (p_xmm : Reg) (p_op : Operand) : E unit :=
  opSSE p_xmm p_op (T_66 ||| T_0F38) 0x10 (Some isXMM_XMMorMEM) NONE.
(* xbyak_mnemonic.h:778 *)
Definition i_pblendw (p_xmm : Reg) (p_op : Operand) (p_imm : Z) : E unit :=
  let p_imm := s32 p_imm in opSSE p_xmm p_op (T_66 ||| T_0F3A) 0x0E (Some isXMM_XMMorMEM) (w8 p_imm).
(* xbyak_mnemonic.h:783 *)
Definition i_pclmulqdq (p_xmm : Reg) (p_op : Operand) (p_imm : Z) : E unit :=
  let p_imm := s32 p_imm in opSSE p_xmm p_op (T_66 ||| T_0F3A) 0x44 (Some isXMM_XMMorMEM) (w8 p_imm).
(* xbyak_mnemonic.h:779 *)
Definition i_pclmulhqhqdq (p_xmm : Reg) (p_op : Operand) : E unit :=
  i_pclmulqdq p_xmm p_op 0x11.
(* xbyak_mnemonic.h:780 *)
Definition i_pclmulhqlqdq (p_xmm : Reg) (p_op : Operand) : E unit :=
  i_pclmulqdq p_xmm p_op 0x01.
(* xbyak_mnemonic.h:781 *)
Definition i_pclmullqhqdq (p_xmm : Reg) (p_op : Operand) : E unit :=
  i_pclmulqdq p_xmm p_op 0x10.
(* xbyak_mnemonic.h:782 *)
Definition i_pclmullqlqdq (p_xmm : Reg) (p_op : Operand) : E unit :=
  i_pclmulqdq p_xmm p_op 0x00.
(* xbyak_mnemonic.h:784 *)
Definition i_pcmpeqb (p_mmx : Reg) (p_op : Operand) : E unit :=
  opMMX p_mmx p_op 0x74 T_0F T_66 NONE.
(* xbyak_mnemonic.h:785 *)
Definition i_pcmpeqd (p_mmx : Reg) (p_op : Operand) : E unit :=
  opMMX p_mmx p_op 0x76 T_0F T_66 NONE.
(* xbyak_mnemonic.h:786 *)
Definition i_pcmpeqq (p_xmm : Reg) (p_op : Operand) : E unit :=
  opSSE p_xmm p_op (T_66 ||| T_0F38) 0x29 (Some isXMM_XMMorMEM) NONE.
(* xbyak_mnemonic.h:787 *)
Definition i_pcmpeqw (p_mmx : Reg) (p_op : Operand) : E unit :=
  opMMX p_mmx p_op 0x75 T_0F T_66 NONE.
(* xbyak_mnemonic.h:788 *)
Definition i_pcmpestri (p_xmm : Reg) (p_op : Operand) (p_imm : Z) : E unit :=
  let p_imm := w8 p_imm in opSSE p_xmm p_op (T_66 ||| T_0F3A) 0x61 (Some isXMM_XMMorMEM) p_imm.
(* xbyak_mnemonic.h:789 *)
Definition i_pcmpestrm (p_xmm : Reg) (p_op : Operand) (p_imm : Z) : E unit :=
  let p_imm := w8 p_imm in opSSE p_xmm p_op (T_66 ||| T_0F3A) 0x60 (Some isXMM_XMMorMEM) p_imm.
(* xbyak_mnemonic.h:790 *)
Definition i_pcmpgtb (p_mmx : Reg) (p_op : Operand) : E unit :=
  opMMX p_mmx p_op 0x64 T_0F T_66 NONE.
(* xbyak_mnemonic.h:791 *)
Definition i_pcmpgtd (p_mmx : Reg) (p_op : Operand) : E unit :=
  opMMX p_mmx p_op 0x66 T_0F T_66 NONE.
(* xbyak_mnemonic.h:792 *)
Definition i_pcmpgtq (p_xmm : Reg) (p_op : Operand) : E unit :=
  opSSE p_xmm p_op (T_66 ||| T_0F38) 0x37 (Some isXMM_XMMorMEM) NONE.
(* xbyak_mnemonic.h:793 *)
Definition i_pcmpgtw (p_mmx : Reg) (p_op : Operand) : E unit :=
  opMMX p_mmx p_op 0x65 T_0F T_66 NONE.
(* xbyak_mnemonic.h:794 *)
Definition i_pcmpistri (p_xmm : Reg) (p_op : Operand) (p_imm : Z) : E unit :=
  let p_imm := w8 p_imm in opSSE p_xmm p_op (T_66 ||| T_0F3A) 0x63 (Some isXMM_XMMorMEM) p_imm.
(* xbyak_mnemonic.h:795 *)
Definition i_pcmpistrm (p_xmm : Reg) (p_op : Operand) (p_imm : Z) : E unit :=
  let p_imm := w8 p_imm in opSSE p_xmm p_op (T_66 ||| T_0F3A) 0x62 (Some isXMM_XMMorMEM) p_imm.
(* xbyak_mnemonic.h:796 *)
Definition i_pdep (p_r1 : Reg) (p_r2 : Reg) (p_op : Operand) : E unit :=
  opRRO p_r1 p_r2 p_op ((T_APX ||| T_F2) ||| T_0F38) 0xf5 NONE.
(* xbyak_mnemonic.h:797 *)
Definition i_pext (p_r1 : Reg) (p_r2 : Reg) (p_op : Operand) : E unit :=
  opRRO p_r1 p_r2 p_op ((T_APX ||| T_F3) ||| T_0F38) 0xf5 NONE.
(* xbyak_mnemonic.h:798 *)
Definition i_pextrb (p_op : Operand) (p_xmm : Reg) (p_imm : Z) : E unit :=
  let p_imm := w8 p_imm in opExt p_op p_xmm 0x14 p_imm false.
(* xbyak_mnemonic.h:799 *)
Definition i_pextrd (p_op : Operand) (p_xmm : Reg) (p_imm : Z) : E unit :=
  let p_imm := w8 p_imm in opExt p_op p_xmm 0x16 p_imm false.
(* xbyak_mnemonic.h:800 *)
Definition i_pextrw (p_op : Operand) (p_xmm : Reg) (p_imm : Z) : E unit :=
  let p_imm := w8 p_imm in opExt p_op p_xmm 0x15 p_imm true.
(* xbyak_mnemonic.h:801 *)
Definition i_phaddd (p_mmx : Reg) (p_op : Operand) : E unit :=
  opMMX p_mmx p_op 0x02 T_0F38 T_66 NONE.
(* xbyak_mnemonic.h:802 *)
Definition i_phaddsw (p_mmx : Reg) (p_op : Operand) : E unit :=
  opMMX p_mmx p_op 0x03 T_0F38 T_66 NONE.
(* xbyak_mnemonic.h:803 *)
Definition i_phaddw (p_mmx : Reg) (p_op : Operand) : E unit :=
  opMMX p_mmx p_op 0x01 T_0F38 T_66 NONE.
(* xbyak_mnemonic.h:804 *)
Definition i_phminposuw (p_xmm : Reg) (p_op : Operand) : E unit :=
  opSSE p_xmm p_op (T_66 ||| T_0F38) 0x41 (Some isXMM_XMMorMEM) NONE.
(* xbyak_mnemonic.h:805 *)
Definition i_phsubd (p_mmx : Reg) (p_op : Operand) : E unit :=
  opMMX p_mmx p_op 0x06 T_0F38 T_66 NONE.
(* xbyak_mnemonic.h:806 *)
Definition i_phsubsw (p_mmx : Reg) (p_op : Operand) : E unit :=
  opMMX p_mmx p_op 0x07 T_0F38 T_66 NONE.
(* xbyak_mnemonic.h:807 *)
Definition i_phsubw (p_mmx : Reg) (p_op : Operand) : E unit :=
  opMMX p_mmx p_op 0x05 T_0F38 T_66 NONE.
(* xbyak_mnemonic.h:808 *)
Definition i_pinsrb (p_xmm : Reg) (p_op : Operand) (p_imm : Z) : E unit :=
  let p_imm := w8 p_imm in opSSE p_xmm p_op (T_66 ||| T_0F3A) 0x20 (Some isXMM_REG32orMEM) p_imm.
(* xbyak_mnemonic.h:809 *)
Definition i_pinsrd (p_xmm : Reg) (p_op : Operand) (p_imm : Z) : E unit :=
  let p_imm := w8 p_imm in opSSE p_xmm p_op (T_66 ||| T_0F3A) 0x22 (Some isXMM_REG32orMEM) p_imm.
(* xbyak_mnemonic.h:810 *)
Definition i_pinsrw (p_mmx : Reg) (p_op : Operand) (p_imm : Z) : E unit :=
  fn tt (let p_imm := s32 p_imm in if ((negb (isREGb (ob p_op) 32)) && (negb (isMEM p_op))) then throw ERR_BAD_COMBINATION else opSSE p_mmx p_op (T_0F ||| (if (isXMM p_mmx) then T_66 else T_NONE)) 0xC4 None p_imm).
(* xbyak_mnemonic.h:811 *)
Definition i_pmaddubsw (p_mmx : Reg) (p_op : Operand) : E unit :=
  opMMX p_mmx p_op 0x04 T_0F38 T_66 NONE.
(* xbyak_mnemonic.h:812 *)
Definition i_pmaddwd (p_mmx : Reg) (p_op : Operand) : E unit :=
  opMMX p_mmx p_op 0xF5 T_0F T_66 NONE.
(* xbyak_mnemonic.h:813 *)
Definition i_pmaxsb (p_xmm : Reg) (p_op : Operand) : E unit :=
  opSSE p_xmm p_op (T_66 ||| T_0F38) 0x3C (Some isXMM_XMMorMEM) NONE.
(* xbyak_mnemonic.h:814 *)
Definition i_pmaxsd (p_xmm : Reg) (p_op : Operand) : E unit :=
  opSSE p_xmm p_op (T_66 ||| T_0F38) 0x3D (Some isXMM_XMMorMEM) NONE.
(* xbyak_mnemonic.h:815 *)
Definition i_pmaxsw (p_mmx : Reg) (p_op : Operand) : E unit :=
  opMMX p_mmx p_op 0xEE T_0F T_66 NONE.
(* xbyak_mnemonic.h:816 *)
Definition i_pmaxub (p_mmx : Reg) (p_op : Operand) : E unit :=
  opMMX p_mmx p_op 0xDE T_0F T_66 NONE.
(* xbyak_mnemonic.h:817 *)
Definition i_pmaxud (p_xmm : Reg) (p_op : Operand) : E unit :=
  opSSE p_xmm p_op (T_66 ||| T_0F38) 0x3F (Some isXMM_XMMorMEM) NONE.
(* xbyak_mnemonic.h:818 *)
Definition i_pmaxuw (p_xmm : Reg) (p_op : Operand) : E unit :=
  opSSE p_xmm p_op (T_66 ||| T_0F38) 0x3E (Some isXMM_XMMorMEM) NONE.
(* xbyak_mnemonic.h:819 *)
Definition i_pminsb (p_xmm : Reg) (p_op : Operand) : E unit :=
  opSSE p_xmm p_op (T_66 ||| T_0F38) 0x38 (Some isXMM_XMMorMEM) NONE.
(* xbyak_mnemonic.h:820 *)
Definition i_pminsd (p_xmm : Reg) (p_op : Operand) : E unit :=
  opSSE p_xmm p_op (T_66 ||| T_0F38) 0x39 (Some isXMM_XMMorMEM) NONE.
(* xbyak_mnemonic.h:821 *)
Definition i_pminsw (p_mmx : Reg) (p_op : Operand) : E unit :=
  opMMX p_mmx p_op 0xEA T_0F T_66 NONE.
(* xbyak_mnemonic.h:822 *)
Definition i_pminub (p_mmx : Reg) (p_op : Operand) : E unit :=
  opMMX p_mmx p_op 0xDA T_0F T_66 NONE.
(* xbyak_mnemonic.h:823 *)
Definition i_pminud (p_xmm : Reg) (p_op : Operand) : E unit :=
  opSSE p_xmm p_op (T_66 ||| T_0F38) 0x3B (Some isXMM_XMMorMEM) NONE.
(* xbyak_mnemonic.h:824 *)
Definition i_pminuw (p_xmm : Reg) (p_op : Operand) : E unit :=
  opSSE p_xmm p_op (T_66 ||| T_0F38) 0x3A (Some isXMM_XMMorMEM) NONE.
(* xbyak_mnemonic.h:825 *)
Definition i_pmovmskb (p_reg : Reg) (p_mmx : Reg) : E unit :=
  (when (isXMM p_mmx) do (db 0x66)) ;;; opSSE p_reg (OReg p_mmx) T_0F 0xD7 None NONE.
(* xbyak_mnemonic.h:826 *)
Definition i_pmovsxbd (p_xmm : Reg) (p_op : Operand) : E unit :=
  opSSE p_xmm p_op (((((T_N4 ||| T_N_VL) ||| T_66) ||| T_0F38) ||| T_YMM) ||| T_EVEX) 0x21 (Some isXMM_XMMorMEM) NONE.
(* xbyak_mnemonic.h:827 *)
Definition i_pmovsxbq (p_xmm : Reg) (p_op : Operand) : E unit :=
  opSSE p_xmm p_op (((((T_N2 ||| T_N_VL) ||| T_66) ||| T_0F38) ||| T_YMM) ||| T_EVEX) 0x22 (Some isXMM_XMMorMEM) NONE.
(* xbyak_mnemonic.h:828 *)
Definition i_pmovsxbw (p_xmm : Reg) (p_op : Operand) : E unit :=
  opSSE p_xmm p_op (((((T_N8 ||| T_N_VL) ||| T_66) ||| T_0F38) ||| T_YMM) ||| T_EVEX) 0x20 (Some isXMM_XMMorMEM) NONE.
(* xbyak_mnemonic.h:829 *)
Definition i_pmovsxdq (p_xmm : Reg) (p_op : Operand) : E unit :=
  opSSE p_xmm p_op ((((((T_N8 ||| T_N_VL) ||| T_66) ||| T_0F38) ||| T_EW0) ||| T_YMM) ||| T_EVEX) 0x25 (Some isXMM_XMMorMEM) NONE.
(* xbyak_mnemonic.h:830 *)
Definition i_pmovsxwd (p_xmm : Reg) (p_op : Operand) : E unit :=
  opSSE p_xmm p_op (((((T_N8 ||| T_N_VL) ||| T_66) ||| T_0F38) ||| T_YMM) ||| T_EVEX) 0x23 (Some isXMM_XMMorMEM) NONE.
(* xbyak_mnemonic.h:831 *)
Definition i_pmovsxwq (p_xmm : Reg) (p_op : Operand) : E unit :=
  opSSE p_xmm p_op (((((T_N4 ||| T_N_VL) ||| T_66) ||| T_0F38) ||| T_YMM) ||| T_EVEX) 0x24 (Some isXMM_XMMorMEM) NONE.
(* xbyak_mnemonic.h:832 *)
Definition i_pmovzxbd (p_xmm : Reg) (p_op : Operand) : E unit :=
  opSSE p_xmm p_op (((((T_N4 ||| T_N_VL) ||| T_66) ||| T_0F38) ||| T_YMM) ||| T_EVEX) 0x31 (Some isXMM_XMMorMEM) NONE.
(* xbyak_mnemonic.h:833 *)
Definition i_pmovzxbq (p_xmm : Reg) (p_op : Operand) : E unit :=
  opSSE p_xmm p_op (((((T_N2 ||| T_N_VL) ||| T_66) ||| T_0F38) ||| T_YMM) ||| T_EVEX) 0x32 (Some isXMM_XMMorMEM) NONE.
(* xbyak_mnemonic.h:834 *)
Definition i_pmovzxbw (p_xmm : Reg) (p_op : Operand) : E unit :=
  opSSE p_xmm p_op (((((T_N8 ||| T_N_VL) ||| T_66) ||| T_0F38) ||| T_YMM) ||| T_EVEX) 0x30 (Some isXMM_XMMorMEM) NONE.
(* xbyak_mnemonic.h:835 *)
Definition i_pmovzxdq (p_xmm : Reg) (p_op : Operand) : E unit :=
  opSSE p_xmm p_op ((((((T_N8 ||| T_N_VL) ||| T_66) ||| T_0F38) ||| T_EW0) ||| T_YMM) ||| T_EVEX) 0x35 (Some isXMM_XMMorMEM) NONE.
(* xbyak_mnemonic.h:836 *)
Definition i_pmovzxwd (p_xmm : Reg) (p_op : Operand) : E unit :=
  opSSE p_xmm p_op (((((T_N8 ||| T_N_VL) ||| T_66) ||| T_0F38) ||| T_YMM) ||| T_EVEX) 0x33 (Some isXMM_XMMorMEM) NONE.
(* xbyak_mnemonic.h:837 *)
Definition i_pmovzxwq (p_xmm : Reg) (p_op : Operand) : E unit :=
  opSSE p_xmm p_op (((((T_N4 ||| T_N_VL) ||| T_66) ||| T_0F38) ||| T_YMM) ||| T_EVEX) 0x34 (Some isXMM_XMMorMEM) NONE.
(* xbyak_mnemonic.h:838 *)
Definition i_pmuldq (p_xmm : Reg) (p_op : Operand) : E unit :=
  opSSE p_xmm p_op (T_66 ||| T_0F38) 0x28 (Some isXMM_XMMorMEM) NONE.
(* xbyak_mnemonic.h:839 *)
Definition i_pmulhrsw (p_mmx : Reg) (p_op : Operand) : E unit :=
  opMMX p_mmx p_op 0x0B T_0F38 T_66 NONE.
(* xbyak_mnemonic.h:840 *)
Definition i_pmulhuw (p_mmx : Reg) (p_op : Operand) : E unit :=
  opMMX p_mmx p_op 0xE4 T_0F T_66 NONE.
(* xbyak_mnemonic.h:841 *)
Definition i_pmulhw (p_mmx : Reg) (p_op : Operand) : E unit :=
  opMMX p_mmx p_op 0xE5 T_0F T_66 NONE.
(* xbyak_mnemonic.h:842 *)
Definition i_pmulld (p_xmm : Reg) (p_op : Operand) : E unit :=
  opSSE p_xmm p_op (T_66 ||| T_0F38) 0x40 (Some isXMM_XMMorMEM) NONE.
(* xbyak_mnemonic.h:843 *)
Definition i_pmullw (p_mmx : Reg) (p_op : Operand) : E unit :=
  opMMX p_mmx p_op 0xD5 T_0F T_66 NONE.
(* xbyak_mnemonic.h:844 *)
Definition i_pmuludq (p_mmx : Reg) (p_op : Operand) : E unit :=
  opMMX p_mmx p_op 0xF4 T_0F T_66 NONE.
(* xbyak_mnemonic.h:845 *)
Definition i_popcnt (p_reg : Reg) (p_op : Operand) : E unit :=
  opCnt p_reg p_op 0xB8.
(* xbyak_mnemonic.h:846 *)
Definition i_popf : E unit :=
  db 0x9D.
(* xbyak_mnemonic.h:847 *)
Definition i_por (p_mmx : Reg) (p_op : Operand) : E unit :=
  opMMX p_mmx p_op 0xEB T_0F T_66 NONE.
(* xbyak_mnemonic.h:848 *)
Definition i_prefetchit0 (p_addr : Address) : E unit :=
  opMR p_addr (Reg32 7) T_0F 0x18 0 NONE.
(* xbyak_mnemonic.h:849 *)
Definition i_prefetchit1 (p_addr : Address) : E unit :=
  opMR p_addr (Reg32 6) T_0F 0x18 0 NONE.
(* xbyak_mnemonic.h:850 *)
Definition i_prefetchnta (p_addr : Address) : E unit :=
  opMR p_addr (Reg32 0) T_0F 0x18 0 NONE.
(* xbyak_mnemonic.h:851 *)
Definition i_prefetcht0 (p_addr : Address) : E unit :=
  opMR p_addr (Reg32 1) T_0F 0x18 0 NONE.
(* xbyak_mnemonic.h:852 *)
Definition i_prefetcht1 (p_addr : Address) : E unit :=
  opMR p_addr (Reg32 2) T_0F 0x18 0 NONE.
(* xbyak_mnemonic.h:853 *)
Definition i_prefetcht2 (p_addr : Address) : E unit :=
  opMR p_addr (Reg32 3) T_0F 0x18 0 NONE.
(* xbyak_mnemonic.h:854 *)
Definition i_prefetchw (p_addr : Address) : E unit :=
  opMR p_addr (Reg32 1) T_0F 0x0D 0 NONE.
(* xbyak_mnemonic.h:855 *)
Definition i_prefetchwt1 (p_addr : Address) : E unit :=
  opMR p_addr (Reg32 2) T_0F 0x0D 0 NONE.
(* xbyak_mnemonic.h:856 *)
Definition i_psadbw (p_mmx : Reg) (p_op : Operand) : E unit :=
  opMMX p_mmx p_op 0xF6 T_0F T_66 NONE.
(* xbyak_mnemonic.h:857 *)
Definition i_pshufb (p_mmx : Reg) (p_op : Operand) : E unit :=
  opMMX p_mmx p_op 0x00 T_0F38 T_66 NONE.
(* xbyak_mnemonic.h:858 *)
Definition i_pshufd (p_mmx : Reg) (p_op : Operand) (p_imm8 : Z) : E unit :=
  let p_imm8 := w8 p_imm8 in opMMX p_mmx p_op 0x70 T_0F T_66 p_imm8.
(* xbyak_mnemonic.h:859 *)
Definition i_pshufhw (p_mmx : Reg) (p_op : Operand) (p_imm8 : Z) : E unit :=
  let p_imm8 := w8 p_imm8 in opMMX p_mmx p_op 0x70 T_0F T_F3 p_imm8.
(* xbyak_mnemonic.h:860 *)
Definition i_pshuflw (p_mmx : Reg) (p_op : Operand) (p_imm8 : Z) : E unit :=
  let p_imm8 := w8 p_imm8 in opMMX p_mmx p_op 0x70 T_0F T_F2 p_imm8.
(* xbyak_mnemonic.h:861 *)
Definition i_pshufw (p_mmx : Reg) (p_op : Operand) (p_imm8 : Z) : E unit :=
  let p_imm8 := w8 p_imm8 in opMMX p_mmx p_op 0x70 T_0F T_NONE p_imm8.
(* xbyak_mnemonic.h:862 *)
Definition i_psignb (p_mmx : Reg) (p_op : Operand) : E unit :=
  opMMX p_mmx p_op 0x08 T_0F38 T_66 NONE.
(* xbyak_mnemonic.h:863 *)
Definition i_psignd (p_mmx : Reg) (p_op : Operand) : E unit :=
  opMMX p_mmx p_op 0x0A T_0F38 T_66 NONE.
(* xbyak_mnemonic.h:864 *)
Definition i_psignw (p_mmx : Reg) (p_op : Operand) : E unit :=
  opMMX p_mmx p_op 0x09 T_0F38 T_66 NONE.
(* xbyak_mnemonic.h:865 *)
Definition i_pslld_mo (p_mmx : Reg) (p_op : Operand) : E unit :=
  opMMX p_mmx p_op 0xF2 T_0F T_66 NONE.
(* xbyak_mnemonic.h:866 *)
Definition i_pslld_mi (p_mmx : Reg) (p_imm8 : Z) : E unit :=
  let p_imm8 := s32 p_imm8 in opMMX_IMM p_mmx p_imm8 0x72 6.
(* xbyak_mnemonic.h:867 *)
Definition i_pslldq (p_xmm : Reg) (p_imm8 : Z) : E unit :=
  let p_imm8 := s32 p_imm8 in opMMX_IMM p_xmm p_imm8 0x73 7.
(* xbyak_mnemonic.h:868 *)
Definition i_psllq_mo (p_mmx : Reg) (p_op : Operand) : E unit :=
  opMMX p_mmx p_op 0xF3 T_0F T_66 NONE.
(* xbyak_mnemonic.h:869 *)
Definition i_psllq_mi (p_mmx : Reg) (p_imm8 : Z) : E unit :=
  let p_imm8 := s32 p_imm8 in opMMX_IMM p_mmx p_imm8 0x73 6.
(* xbyak_mnemonic.h:870 *)
Definition i_psllw_mo (p_mmx : Reg) (p_op : Operand) : E unit :=
  opMMX p_mmx p_op 0xF1 T_0F T_66 NONE.
(* xbyak_mnemonic.h:871 *)
Definition i_psllw_mi (p_mmx : Reg) (p_imm8 : Z) : E unit :=
  let p_imm8 := s32 p_imm8 in opMMX_IMM p_mmx p_imm8 0x71 6.
(* xbyak_mnemonic.h:872 *)
Definition i_psrad_mo (p_mmx : Reg) (p_op : Operand) : E unit :=
  opMMX p_mmx p_op 0xE2 T_0F T_66 NONE.
(* xbyak_mnemonic.h:873 *)
Definition i_psrad_mi (p_mmx : Reg) (p_imm8 : Z) : E unit :=
  let p_imm8 := s32 p_imm8 in opMMX_IMM p_mmx p_imm8 0x72 4.
(* xbyak_mnemonic.h:874 *)
Definition i_psraw_mo (p_mmx : Reg) (p_op : Operand) : E unit :=
  opMMX p_mmx p_op 0xE1 T_0F T_66 NONE.
(* xbyak_mnemonic.h:875 *)
Definition i_psraw_mi (p_mmx : Reg) (p_imm8 : Z) : E unit :=
  let p_imm8 := s32 p_imm8 in opMMX_IMM p_mmx p_imm8 0x71 4.
(* xbyak_mnemonic.h:876 *)
Definition i_psrld_mo (p_mmx : Reg) (p_op : Operand) : E unit :=
  opMMX p_mmx p_op 0xD2 T_0F T_66 NONE.
(* xbyak_mnemonic.h:877 *)
Definition i_psrld_mi (p_mmx : Reg) (p_imm8 : Z) : E unit :=
  let p_imm8 := s32 p_imm8 in opMMX_IMM p_mmx p_imm8 0x72 2.
(* xbyak_mnemonic.h:878 *)
Definition i_psrldq (p_xmm : Reg) (p_imm8 : Z) : E unit :=
  let p_imm8 := s32 p_imm8 in opMMX_IMM p_xmm p_imm8 0x73 3.
(* xbyak_mnemonic.h:879 *)
Definition i_psrlq_mo (p_mmx : Reg) (p_op : Operand) : E unit :=
  opMMX p_mmx p_op 0xD3 T_0F T_66 NONE.
(* xbyak_mnemonic.h:880 *)
Definition i_psrlq_mi (p_mmx : Reg) (p_imm8 : Z) : E unit :=
  let p_imm8 := s32 p_imm8 in opMMX_IMM p_mmx p_imm8 0x73 2.
(* xbyak_mnemonic.h:881 *)
Definition i_psrlw_mo (p_mmx : Reg) (p_op : Operand) : E unit :=
  opMMX p_mmx p_op 0xD1 T_0F T_66 NONE.
(* xbyak_mnemonic.h:882 *)
Definition i_psrlw_mi (p_mmx : Reg) (p_imm8 : Z) : E unit :=
  let p_imm8 := s32 p_imm8 in opMMX_IMM p_mmx p_imm8 0x71 2.
(* xbyak_mnemonic.h:883 *)
Definition i_psubb (p_mmx : Reg) (p_op : Operand) : E unit :=
  opMMX p_mmx p_op 0xF8 T_0F T_66 NONE.
(* xbyak_mnemonic.h:884 *)
Definition i_psubd (p_mmx : Reg) (p_op : Operand) : E unit :=
  opMMX p_mmx p_op 0xFA T_0F T_66 NONE.
(* xbyak_mnemonic.h:885 *)
Definition i_psubq (p_mmx : Reg) (p_op : Operand) : E unit :=
  opMMX p_mmx p_op 0xFB T_0F T_66 NONE.
(* xbyak_mnemonic.h:886 *)
Definition i_psubsb (p_mmx : Reg) (p_op : Operand) : E unit :=
  opMMX p_mmx p_op 0xE8 T_0F T_66 NONE.
(* xbyak_mnemonic.h:887 *)
Definition i_psubsw (p_mmx : Reg) (p_op : Operand) : E unit :=
  opMMX p_mmx p_op 0xE9 T_0F T_66 NONE.
(* xbyak_mnemonic.h:888 *)
Definition i_psubusb (p_mmx : Reg) (p_op : Operand) : E unit :=
  opMMX p_mmx p_op 0xD8 T_0F T_66 NONE.
(* xbyak_mnemonic.h:889 *)
Definition i_psubusw (p_mmx : Reg) (p_op : Operand) : E unit :=
  opMMX p_mmx p_op 0xD9 T_0F T_66 NONE.
(* xbyak_mnemonic.h:890 *)
Definition i_psubw (p_mmx : Reg) (p_op : Operand) : E unit :=
  opMMX p_mmx p_op 0xF9 T_0F T_66 NONE.
(* xbyak_mnemonic.h:891 *)
Definition i_ptest (p_xmm : Reg) (p_op : Operand) : E unit :=
  opSSE p_xmm p_op ((T_66 ||| T_0F38) ||| T_YMM) 0x17 (Some isXMM_XMMorMEM) NONE.
(* xbyak_mnemonic.h:892 *)
Definition i_punpckhbw (p_mmx : Reg) (p_op : Operand) : E unit :=
  opMMX p_mmx p_op 0x68 T_0F T_66 NONE.
(* xbyak_mnemonic.h:893 *)
Definition i_punpckhdq (p_mmx : Reg) (p_op : Operand) : E unit :=
  opMMX p_mmx p_op 0x6A T_0F T_66 NONE.
(* xbyak_mnemonic.h:894 *)
Definition i_punpckhqdq (p_xmm : Reg) (p_op : Operand) : E unit :=
  opSSE p_xmm p_op (T_66 ||| T_0F) 0x6D (Some isXMM_XMMorMEM) NONE.
(* xbyak_mnemonic.h:895 *)
Definition i_punpckhwd (p_mmx : Reg) (p_op : Operand) : E unit :=
  opMMX p_mmx p_op 0x69 T_0F T_66 NONE.
(* xbyak_mnemonic.h:896 *)
Definition i_punpcklbw (p_mmx : Reg) (p_op : Operand) : E unit :=
  opMMX p_mmx p_op 0x60 T_0F T_66 NONE.
(* xbyak_mnemonic.h:897 *)
Definition i_punpckldq (p_mmx : Reg) (p_op : Operand) : E unit :=
  opMMX p_mmx p_op 0x62 T_0F T_66 NONE.
(* xbyak_mnemonic.h:898 *)
Definition i_punpcklqdq (p_xmm : Reg) (p_op : Operand) : E unit :=
  opSSE p_xmm p_op (T_66 ||| T_0F) 0x6C (Some isXMM_XMMorMEM) NONE.
(* xbyak_mnemonic.h:899 *)
Definition i_punpcklwd (p_mmx : Reg) (p_op : Operand) : E unit :=
  opMMX p_mmx p_op 0x61 T_0F T_66 NONE.
(* xbyak_mnemonic.h:900 *)
Definition i_pushf : E unit :=
  db 0x9C.
(* xbyak_mnemonic.h:901 *)
Definition i_pxor (p_mmx : Reg) (p_op : Operand) : E unit :=
  opMMX p_mmx p_op 0xEF T_0F T_66 NONE.
(* xbyak_mnemonic.h:902 *)
Definition i_rcl_ob (p_op : Operand) (p__cl : Reg) : E unit :=
  opShiftCL p_op p__cl 2 None.
(* xbyak_mnemonic.h:903 *)
Definition i_rcl_oi (p_op : Operand) (p_imm : Z) : E unit :=
  let p_imm := s32 p_imm in opShift p_op p_imm 2 None.
(* xbyak_mnemonic.h:904 *)
Definition i_rcl_rob (p_d : Reg) (p_op : Operand) (p__cl : Reg) : E unit :=
  opShiftCL p_op p__cl 2 (Some p_d).
(* xbyak_mnemonic.h:905 *)
Definition i_rcl_roi (p_d : Reg) (p_op : Operand) (p_imm : Z) : E unit :=
  let p_imm := s32 p_imm in opShift p_op p_imm 2 (Some p_d).
(* xbyak_mnemonic.h:906 *)
Definition i_rcpps (p_xmm : Reg) (p_op : Operand) : E unit :=
  opSSE p_xmm p_op T_0F 0x53 (Some isXMM_XMMorMEM) NONE.
(* xbyak_mnemonic.h:907 *)
Definition i_rcpss (p_xmm : Reg) (p_op : Operand) : E unit :=
  opSSE p_xmm p_op (T_0F ||| T_F3) 0x53 (Some isXMM_XMMorMEM) NONE.
(* xbyak_mnemonic.h:908 *)
Definition i_rcr_ob (p_op : Operand) (p__cl : Reg) : E unit :=
  opShiftCL p_op p__cl 3 None.
(* xbyak_mnemonic.h:909 *)
Definition i_rcr_oi (p_op : Operand) (p_imm : Z) : E unit :=
  let p_imm := s32 p_imm in opShift p_op p_imm 3 None.
(* xbyak_mnemonic.h:910 *)
Definition i_rcr_rob (p_d : Reg) (p_op : Operand) (p__cl : Reg) : E unit :=
  opShiftCL p_op p__cl 3 (Some p_d).
(* xbyak_mnemonic.h:911 *)
Definition i_rcr_roi (p_d : Reg) (p_op : Operand) (p_imm : Z) : E unit :=
  let p_imm := s32 p_imm in opShift p_op p_imm 3 (Some p_d).
(* xbyak_mnemonic.h:912 *)
Definition i_rdmsr : E unit :=
  db 0x0F ;;; db 0x32.
(* xbyak_mnemonic.h:913 *)
Definition i_rdpmc : E unit :=
  db 0x0F ;;; db 0x33.
(* xbyak_mnemonic.h:914 *)
Definition i_rdrand (p_r : Reg) : E unit :=
  fn tt (if (isBit p_r 8) then throw ERR_BAD_SIZE_OF_REGISTER else opRR (regOf 6 REG (getBit p_r) false) p_r T_0F 0xC7).
(* xbyak_mnemonic.h:915 *)
Definition i_rdseed (p_r : Reg) : E unit :=
  fn tt (if (isBit p_r 8) then throw ERR_BAD_SIZE_OF_REGISTER else opRR (regOf 7 REG (getBit p_r) false) p_r T_0F 0xC7).
(* xbyak_mnemonic.h:916 *)
Definition i_rdtsc : E unit :=
  db 0x0F ;;; db 0x31.
(* xbyak_mnemonic.h:917 *)
Definition i_rdtscp : E unit :=
  db 0x0F ;;; db 0x01 ;;; db 0xF9.
(* xbyak_mnemonic.h:918 *)
Definition i_rep : E unit :=
  db 0xF3.
(* xbyak_mnemonic.h:919 *)
Definition i_repe : E unit :=
  db 0xF3.
(* xbyak_mnemonic.h:920 *)
Definition i_repne : E unit :=
  db 0xF2.
(* xbyak_mnemonic.h:921 *)
Definition i_repnz : E unit :=
  db 0xF2.
(* xbyak_mnemonic.h:922 *)
Definition i_repz : E unit :=
  db 0xF3.
(* xbyak_mnemonic.h:923 *)
Definition i_ret (p_imm : Z) : E unit :=
  let p_imm := s32 p_imm in (if (negb (p_imm =? 0)) then db 0xC2 ;;; dw p_imm else db 0xC3).
(* xbyak_mnemonic.h:924 *)
Definition i_retf (p_imm : Z) : E unit :=
  let p_imm := s32 p_imm in (if (negb (p_imm =? 0)) then db 0xCA ;;; dw p_imm else db 0xCB).
(* xbyak_mnemonic.h:925 *)
Definition i_rol_ob (p_op : Operand) (p__cl : Reg) : E unit :=
  opShiftCL p_op p__cl 8 None.
(* xbyak_mnemonic.h:926 *)
Definition i_rol_oi (p_op : Operand) (p_imm : Z) : E unit :=
  let p_imm := s32 p_imm in opShift p_op p_imm 8 None.
(* xbyak_mnemonic.h:927 *)
Definition i_rol_rob (p_d : Reg) (p_op : Operand) (p__cl : Reg) : E unit :=
  opShiftCL p_op p__cl 8 (Some p_d).
(* xbyak_mnemonic.h:928 *)
Definition i_rol_roi (p_d : Reg) (p_op : Operand) (p_imm : Z) : E unit :=
  let p_imm := s32 p_imm in opShift p_op p_imm 8 (Some p_d).
(* xbyak_mnemonic.h:929 *)
Definition i_ror_ob (p_op : Operand) (p__cl : Reg) : E unit :=
  opShiftCL p_op p__cl 9 None.
(* xbyak_mnemonic.h:930 *)
Definition i_ror_oi (p_op : Operand) (p_imm : Z) : E unit :=
  let p_imm := s32 p_imm in opShift p_op p_imm 9 None.
(* xbyak_mnemonic.h:931 *)
Definition i_ror_rob (p_d : Reg) (p_op : Operand) (p__cl : Reg) : E unit :=
  opShiftCL p_op p__cl 9 (Some p_d).
(* xbyak_mnemonic.h:932 *)
Definition i_ror_roi (p_d : Reg) (p_op : Operand) (p_imm : Z) : E unit :=
  let p_imm := s32 p_imm in opShift p_op p_imm 9 (Some p_d).
(* xbyak_mnemonic.h:933 *)
Definition i_rorx (p_r : Reg) (p_op : Operand) (p_imm : Z) : E unit :=
  let p_imm := w8 p_imm in opRRO p_r (Reg32e 0 (getBit p_r)) p_op ((T_0F3A ||| T_F2) ||| T_APX) 0xF0 p_imm.
(* xbyak_mnemonic.h:934 *)
Definition i_roundpd (p_xmm : Reg) (p_op : Operand) (p_imm : Z) : E unit :=
  let p_imm := w8 p_imm in opSSE p_xmm p_op ((T_66 ||| T_0F3A) ||| T_YMM) 0x09 (Some isXMM_XMMorMEM) p_imm.
(* xbyak_mnemonic.h:935 *)
Definition i_roundps (p_xmm : Reg) (p_op : Operand) (p_imm : Z) : E unit :=
  let p_imm := w8 p_imm in opSSE p_xmm p_op ((T_66 ||| T_0F3A) ||| T_YMM) 0x08 (Some isXMM_XMMorMEM) p_imm.
(* xbyak_mnemonic.h:936 *)
Definition i_roundsd (p_xmm : Reg) (p_op : Operand) (p_imm : Z) : E unit :=
  let p_imm := s32 p_imm in opSSE p_xmm p_op (T_66 ||| T_0F3A) 0x0B (Some isXMM_XMMorMEM) (w8 p_imm).
(* xbyak_mnemonic.h:937 *)
Definition i_roundss (p_xmm : Reg) (p_op : Operand) (p_imm : Z) : E unit :=
  let p_imm := s32 p_imm in opSSE p_xmm p_op (T_66 ||| T_0F3A) 0x0A (Some isXMM_XMMorMEM) (w8 p_imm).
(* xbyak_mnemonic.h:938 *)
Definition i_rsqrtps (p_xmm : Reg) (p_op : Operand) : E unit :=
  opSSE p_xmm p_op T_0F 0x52 (Some isXMM_XMMorMEM) NONE.
(* xbyak_mnemonic.h:939 *)
Definition i_rsqrtss (p_xmm : Reg) (p_op : Operand) : E unit :=
  opSSE p_xmm p_op (T_0F ||| T_F3) 0x52 (Some isXMM_XMMorMEM) NONE.
(* xbyak_mnemonic.h:940 *)
Definition i_sahf : E unit :=
  db 0x9E.
(* xbyak_mnemonic.h:941 *)
Definition i_sal_ob (p_op : Operand) (p__cl : Reg) : E unit :=
  opShiftCL p_op p__cl 12 None.
(* xbyak_mnemonic.h:942 *)
Definition i_sal_oi (p_op : Operand) (p_imm : Z) : E unit :=
  let p_imm := s32 p_imm in opShift p_op p_imm 12 None.
(* xbyak_mnemonic.h:943 *)
Definition i_sal_rob (p_d : Reg) (p_op : Operand) (p__cl : Reg) : E unit :=
  opShiftCL p_op p__cl 12 (Some p_d).
(* xbyak_mnemonic.h:944 *)
Definition i_sal_roi (p_d : Reg) (p_op : Operand) (p_imm : Z) : E unit :=
  let p_imm := s32 p_imm in opShift p_op p_imm 12 (Some p_d).
(* xbyak_mnemonic.h:945 *)
Definition i_sar_ob (p_op : Operand) (p__cl : Reg) : E unit :=
  opShiftCL p_op p__cl 15 None.
(* xbyak_mnemonic.h:946 *)
Definition i_sar_oi (p_op : Operand) (p_imm : Z) : E unit :=
  let p_imm := s32 p_imm in opShift p_op p_imm 15 None.
(* xbyak_mnemonic.h:947 *)
Definition i_sar_rob (p_d : Reg) (p_op : Operand) (p__cl : Reg) : E unit :=
  opShiftCL p_op p__cl 15 (Some p_d).
(* xbyak_mnemonic.h:948 *)
Definition i_sar_roi (p_d : Reg) (p_op : Operand) (p_imm : Z) : E unit :=
  let p_imm := s32 p_imm in opShift p_op p_imm 15 (Some p_d).
(* xbyak_mnemonic.h:949 *)
Definition i_sarx (p_r1 : Reg) (p_op : Operand) (p_r2 : Reg) : E unit :=
  opRRO p_r1 p_r2 p_op ((T_APX ||| T_F3) ||| T_0F38) 0xf7 NONE.
(* xbyak_mnemonic.h:950 *)
Definition i_sbb_oi (p_op : Operand) (p_imm : Z) : E unit :=
  let p_imm := w32 p_imm in opOI p_op p_imm 0x18 3.
(* xbyak_mnemonic.h:951 *)
Definition i_sbb_oo (p_op1 : Operand) (p_op2 : Operand) : E unit :=
  opRO_MR p_op1 p_op2 0x18.
(* xbyak_mnemonic.h:952 *)
Definition i_sbb_roi (p_d : Reg) (p_op : Operand) (p_imm : Z) : E unit :=
  let p_imm := w32 p_imm in opROI p_d p_op p_imm T_NONE 3.
(* xbyak_mnemonic.h:953 *)
Definition i_sbb_roo (p_d : Reg) (p_op1 : Operand) (p_op2 : Operand) : E unit :=
  opROO p_d p_op1 p_op2 T_NONE 0x18 0 NONE ;;; ret tt.
(* xbyak_mnemonic.h:954 *)
Definition i_scasb : E unit :=
  db 0xAE.
(* xbyak_mnemonic.h:955 *)
Definition i_scasd : E unit :=
  db 0xAF.
(* xbyak_mnemonic.h:956 *)
Definition i_scasw : E unit :=
  db 0x66 ;;; db 0xAF.
(* xbyak_mnemonic.h:957 *)
Definition i_serialize : E unit :=
  db 0x0F ;;; db 0x01 ;;; db 0xE8.
(* xbyak_mnemonic.h:958 *)
Definition i_seta (p_op : Operand) : E unit :=
  opSetCC p_op 7.
(* xbyak_mnemonic.h:959 *)
Definition i_setae (p_op : Operand) : E unit :=
  opSetCC p_op 3.
(* xbyak_mnemonic.h:960 *)
Definition i_setb (p_op : Operand) : E unit :=
  opSetCC p_op 2.
(* xbyak_mnemonic.h:961 *)
Definition i_setbe (p_op : Operand) : E unit :=
  opSetCC p_op 6.
(* xbyak_mnemonic.h:962 *)
Definition i_setc (p_op : Operand) : E unit :=
  opSetCC p_op 2.
(* xbyak_mnemonic.h:963 *)
Definition i_sete (p_op : Operand) : E unit :=
  opSetCC p_op 4.
(* xbyak_mnemonic.h:964 *)
Definition i_setg (p_op : Operand) : E unit :=
  opSetCC p_op 15.
(* xbyak_mnemonic.h:965 *)
Definition i_setge (p_op : Operand) : E unit :=
  opSetCC p_op 13.
(* xbyak_mnemonic.h:966 *)
Definition i_setl (p_op : Operand) : E unit :=
  opSetCC p_op 12.
(* xbyak_mnemonic.h:967 *)
Definition i_setle (p_op : Operand) : E unit :=
  opSetCC p_op 14.
(* xbyak_mnemonic.h:968 *)
Definition i_setna (p_op : Operand) : E unit :=
  opSetCC p_op 6.
(* xbyak_mnemonic.h:969 *)
Definition i_setnae (p_op : Operand) : E unit :=
  opSetCC p_op 2.
(* xbyak_mnemonic.h:970 *)
Definition i_setnb (p_op : Operand) : E unit :=
  opSetCC p_op 3.
(* xbyak_mnemonic.h:971 *)
Definition i_setnbe (p_op : Operand) : E unit :=
  opSetCC p_op 7.
(* xbyak_mnemonic.h:972 *)
Definition i_setnc (p_op : Operand) : E unit :=
  opSetCC p_op 3.
(* xbyak_mnemonic.h:973 *)
Definition i_setne (p_op : Operand) : E unit :=
  opSetCC p_op 5.
(* xbyak_mnemonic.h:974 *)
Definition i_setng (p_op : Operand) : E unit :=
  opSetCC p_op 14.
(* xbyak_mnemonic.h:975 *)
Definition i_setnge (p_op : Operand) : E unit :=
  opSetCC p_op 12.
(* xbyak_mnemonic.h:976 *)
Definition i_setnl (p_op : Operand) : E unit :=
  opSetCC p_op 13.
(* xbyak_mnemonic.h:977 *)
Definition i_setnle (p_op : Operand) : E unit :=
  opSetCC p_op 15.
(* xbyak_mnemonic.h:978 *)
Definition i_setno (p_op : Operand) : E unit :=
  opSetCC p_op 1.
(* xbyak_mnemonic.h:979 *)
Definition i_setnp (p_op : Operand) : E unit :=
  opSetCC p_op 11.
(* xbyak_mnemonic.h:980 *)
Definition i_setns (p_op : Operand) : E unit :=
  opSetCC p_op 9.
(* xbyak_mnemonic.h:981 *)
Definition i_setnz (p_op : Operand) : E unit :=
  opSetCC p_op 5.
(* xbyak_mnemonic.h:982 *)
Definition i_seto (p_op : Operand) : E unit :=
  opSetCC p_op 0.
(* xbyak_mnemonic.h:983 *)
Definition i_setp (p_op : Operand) : E unit :=
  opSetCC p_op 10.
(* xbyak_mnemonic.h:984 *)
Definition i_setpe (p_op : Operand) : E unit :=
  opSetCC p_op 10.
(* xbyak_mnemonic.h:985 *)
Definition i_setpo (p_op : Operand) : E unit :=
  opSetCC p_op 11.
(* xbyak_mnemonic.h:986 *)
Definition i_sets (p_op : Operand) : E unit :=
  opSetCC p_op 8.
(* xbyak_mnemonic.h:987 *)
Definition i_setz (p_op : Operand) : E unit :=
  opSetCC p_op 4.
(* xbyak_mnemonic.h:988 *)
Definition i_sfence : E unit :=
  db 0x0F ;;; db 0xAE ;;; db 0xF8.
(* xbyak_mnemonic.h:989 *)
Definition i_sha1msg1 (p_x : Reg) (p_op : Operand) : E unit :=
  opSSE_APX p_x p_op T_0F38 0xC9 T_MUST_EVEX 0xD9 NONE.
(* xbyak_mnemonic.h:990 *)
Definition i_sha1msg2 (p_x : Reg) (p_op : Operand) : E unit :=
  opSSE_APX p_x p_op T_0F38 0xCA T_MUST_EVEX 0xDA NONE.
(* xbyak_mnemonic.h:991 *)
Definition i_sha1nexte (p_x : Reg) (p_op : Operand) : E unit :=
  opSSE_APX p_x p_op T_0F38 0xC8 T_MUST_EVEX 0xD8 NONE.
(* xbyak_mnemonic.h:992 *)
Definition i_sha1rnds4 (p_x : Reg) (p_op : Operand) (p_imm : Z) : E unit :=
  let p_imm := w8 p_imm in opSSE_APX p_x p_op T_0F3A 0xCC T_MUST_EVEX 0xD4 p_imm.
(* xbyak_mnemonic.h:993 *)
Definition i_sha256msg1 (p_x : Reg) (p_op : Operand) : E unit :=
  opSSE_APX p_x p_op T_0F38 0xCC T_MUST_EVEX 0xDC NONE.
(* xbyak_mnemonic.h:994 *)
Definition i_sha256msg2 (p_x : Reg) (p_op : Operand) : E unit :=
  opSSE_APX p_x p_op T_0F38 0xCD T_MUST_EVEX 0xDD NONE.
(* xbyak_mnemonic.h:995 *)
Definition i_sha256rnds2 (p_x : Reg) (p_op : Operand) : E unit :=
  opSSE_APX p_x p_op T_0F38 0xCB T_MUST_EVEX 0xDB NONE.
(* xbyak_mnemonic.h:996 *)
Definition i_shl_ob (p_op : Operand) (p__cl : Reg) : E unit :=
  opShiftCL p_op p__cl 12 None.
(* xbyak_mnemonic.h:997 *)
Definition i_shl_oi (p_op : Operand) (p_imm : Z) : E unit :=
  let p_imm := s32 p_imm in opShift p_op p_imm 12 None.
(* xbyak_mnemonic.h:998 *)
Definition i_shl_rob (p_d : Reg) (p_op : Operand) (p__cl : Reg) : E unit :=
  opShiftCL p_op p__cl 12 (Some p_d).
(* xbyak_mnemonic.h:999 *)
Definition i_shl_roi (p_d : Reg) (p_op : Operand) (p_imm : Z) : E unit :=
  let p_imm := s32 p_imm in opShift p_op p_imm 12 (Some p_d).
(* xbyak_mnemonic.h:1000 *)
Definition i_shld_orb (p_op : Operand) (p_reg : Reg) (p__cl : Reg) : E unit :=
  opShxd noReg p_op p_reg 0 0xA4 0x24 (Some p__cl).
(* xbyak_mnemonic.h:1001 *)
Definition i_shld_ori (p_op : Operand) (p_reg : Reg) (p_imm : Z) : E unit :=
  let p_imm := w8 p_imm in opShxd noReg p_op p_reg p_imm 0xA4 0x24 None.
(* xbyak_mnemonic.h:1002 *)
Definition i_shld_rorb (p_d : Reg) (p_op : Operand) (p_reg : Reg) (p__cl : Reg) : E unit :=
  opShxd p_d p_op p_reg 0 0xA4 0x24 (Some p__cl).
(* xbyak_mnemonic.h:1003 *)
Definition i_shld_rori (p_d : Reg) (p_op : Operand) (p_reg : Reg) (p_imm : Z) : E unit :=
  let p_imm := w8 p_imm in opShxd p_d p_op p_reg p_imm 0xA4 0x24 None.
(* xbyak_mnemonic.h:1004 *)
Definition i_shlx (p_r1 : Reg) (p_op : Operand) (p_r2 : Reg) : E unit :=
  opRRO p_r1 p_r2 p_op ((T_APX ||| T_66) ||| T_0F38) 0xf7 NONE.
(* xbyak_mnemonic.h:1005 *)
Definition i_shr_ob (p_op : Operand) (p__cl : Reg) : E unit :=
  opShiftCL p_op p__cl 13 None.
(* xbyak_mnemonic.h:1006 *)
Definition i_shr_oi (p_op : Operand) (p_imm : Z) : E unit :=
  let p_imm := s32 p_imm in opShift p_op p_imm 13 None.
(* xbyak_mnemonic.h:1007 *)
Definition i_shr_rob (p_d : Reg) (p_op : Operand) (p__cl : Reg) : E unit :=
  opShiftCL p_op p__cl 13 (Some p_d).
(* xbyak_mnemonic.h:1008 *)
Definition i_shr_roi (p_d : Reg) (p_op : Operand) (p_imm : Z) : E unit :=
  let p_imm := s32 p_imm in opShift p_op p_imm 13 (Some p_d).
(* xbyak_mnemonic.h:1009 *)
Definition i_shrd_orb (p_op : Operand) (p_reg : Reg) (p__cl : Reg) : E unit :=
  opShxd noReg p_op p_reg 0 0xAC 0x2C (Some p__cl).
(* xbyak_mnemonic.h:1010 *)
Definition i_shrd_ori (p_op : Operand) (p_reg : Reg) (p_imm : Z) : E unit :=
  let p_imm := w8 p_imm in opShxd noReg p_op p_reg p_imm 0xAC 0x2C None.
(* xbyak_mnemonic.h:1011 *)
Definition i_shrd_rorb (p_d : Reg) (p_op : Operand) (p_reg : Reg) (p__cl : Reg) : E unit :=
  opShxd p_d p_op p_reg 0 0xAC 0x2C (Some p__cl).
(* xbyak_mnemonic.h:1012 *)
Definition i_shrd_rori (p_d : Reg) (p_op : Operand) (p_reg : Reg) (p_imm : Z) : E unit :=
  let p_imm := w8 p_imm in opShxd p_d p_op p_reg p_imm 0xAC 0x2C None.
(* xbyak_mnemonic.h:1013 *)
Definition i_shrx (p_r1 : Reg) (p_op : Operand) (p_r2 : Reg) : E unit :=
  opRRO p_r1 p_r2 p_op ((T_APX ||| T_F2) ||| T_0F38) 0xf7 NONE.
(* xbyak_mnemonic.h:1014 *)
Definition i_shufpd (p_xmm : Reg) (p_op : Operand) (p_imm8 : Z) : E unit :=
  let p_imm8 := w8 p_imm8 in opSSE p_xmm p_op (T_0F ||| T_66) 0xC6 (Some isXMM_XMMorMEM) p_imm8.
(* xbyak_mnemonic.h:1015 *)
Definition i_shufps (p_xmm : Reg) (p_op : Operand) (p_imm8 : Z) : E unit :=
  let p_imm8 := w8 p_imm8 in opSSE p_xmm p_op T_0F 0xC6 (Some isXMM_XMMorMEM) p_imm8.
(* xbyak_mnemonic.h:1016 *)
Definition i_sqrtpd (p_xmm : Reg) (p_op : Operand) : E unit :=
  opSSE p_xmm p_op (T_0F ||| T_66) 0x51 (Some isXMM_XMMorMEM) NONE.
(* xbyak_mnemonic.h:1017 *)
Definition i_sqrtps (p_xmm : Reg) (p_op : Operand) : E unit :=
  opSSE p_xmm p_op T_0F 0x51 (Some isXMM_XMMorMEM) NONE.
(* xbyak_mnemonic.h:1018 *)
Definition i_sqrtsd (p_xmm : Reg) (p_op : Operand) : E unit :=
  opSSE p_xmm p_op (T_0F ||| T_F2) 0x51 (Some isXMM_XMMorMEM) NONE.
(* xbyak_mnemonic.h:1019 *)
Definition i_sqrtss (p_xmm : Reg) (p_op : Operand) : E unit :=
  opSSE p_xmm p_op (T_0F ||| T_F3) 0x51 (Some isXMM_XMMorMEM) NONE.
(* xbyak_mnemonic.h:1020 *)
Definition i_stac : E unit :=
  db 0x0F ;;; db 0x01 ;;; db 0xCB.
(* xbyak_mnemonic.h:1021 *)
Definition i_stc : E unit :=
  db 0xF9.
(* xbyak_mnemonic.h:1022 *)
Definition i_std : E unit :=
  db 0xFD.
(* xbyak_mnemonic.h:1023 *)
Definition i_sti : E unit :=
  db 0xFB.
(* xbyak_mnemonic.h:1024 *)
Definition i_stmxcsr (p_addr : Address) : E unit :=
  opMR p_addr (Reg32 3) T_0F 0xAE 0 NONE.
(* xbyak_mnemonic.h:1025 *)
Definition i_stosb : E unit :=
  db 0xAA.
(* xbyak_mnemonic.h:1026 *)
Definition i_stosd : E unit :=
  db 0xAB.
(* xbyak_mnemonic.h:1027 *)
Definition i_stosw : E unit :=
  db 0x66 ;;; db 0xAB.
(* xbyak_mnemonic.h:1028 *)
Definition i_sub_oi (p_op : Operand) (p_imm : Z) : E unit :=
  let p_imm := w32 p_imm in opOI p_op p_imm 0x28 5.
(* xbyak_mnemonic.h:1029 *)
Definition i_sub_oo (p_op1 : Operand) (p_op2 : Operand) : E unit :=
  opRO_MR p_op1 p_op2 0x28.
(* xbyak_mnemonic.h:1030 *)
Definition i_sub_roi (p_d : Reg) (p_op : Operand) (p_imm : Z) : E unit :=
  let p_imm := w32 p_imm in opROI p_d p_op p_imm (T_NF ||| T_CODE1_IF1) 5.
(* xbyak_mnemonic.h:1031 *)
Definition i_sub_roo (p_d : Reg) (p_op1 : Operand) (p_op2 : Operand) : E unit :=
  opROO p_d p_op1 p_op2 (T_NF ||| T_CODE1_IF1) 0x28 0 NONE ;;; ret tt.
(* xbyak_mnemonic.h:1032 *)
Definition i_subpd (p_xmm : Reg) (p_op : Operand) : E unit :=
  opSSE p_xmm p_op (T_0F ||| T_66) 0x5C (Some isXMM_XMMorMEM) NONE.
(* xbyak_mnemonic.h:1033 *)
Definition i_subps (p_xmm : Reg) (p_op : Operand) : E unit :=
  opSSE p_xmm p_op T_0F 0x5C (Some isXMM_XMMorMEM) NONE.
(* xbyak_mnemonic.h:1034 *)
Definition i_subsd (p_xmm : Reg) (p_op : Operand) : E unit :=
  opSSE p_xmm p_op (T_0F ||| T_F2) 0x5C (Some isXMM_XMMorMEM) NONE.
(* xbyak_mnemonic.h:1035 *)
Definition i_subss (p_xmm : Reg) (p_op : Operand) : E unit :=
  opSSE p_xmm p_op (T_0F ||| T_F3) 0x5C (Some isXMM_XMMorMEM) NONE.
(* xbyak_mnemonic.h:1036 *)
Definition i_sysenter : E unit :=
  db 0x0F ;;; db 0x34.
(* xbyak_mnemonic.h:1037 *)
Definition i_sysexit : E unit :=
  db 0x0F ;;; db 0x35.
(* xbyak_mnemonic.h:1038 *)
Definition i_tpause (p_r : Reg) : E unit :=
  fn tt (let v_idx := (getIdx p_r) in if (7 <? v_idx) then throw ERR_BAD_PARAMETER else db 0x66 ;;; db 0x0F ;;; db 0xAE ;;; setModRM 3 6 v_idx).
(* xbyak_mnemonic.h:1039 *)
Definition i_tzcnt (p_reg : Reg) (p_op : Operand) : E unit :=
  done <- opROO noReg p_op (OReg p_reg) (T_APX ||| T_NF) 0xF4 0 NONE ;; if (done : bool) then ret tt else opCnt p_reg p_op 0xBC.
(* xbyak_mnemonic.h:1040 *)
Definition i_ucomisd (p_xmm : Reg) (p_op : Operand) : E unit :=
  opSSE p_xmm p_op (T_66 ||| T_0F) 0x2E (Some isXMM_XMMorMEM) NONE.
(* xbyak_mnemonic.h:1041 *)
Definition i_ucomiss (p_xmm : Reg) (p_op : Operand) : E unit :=
  opSSE p_xmm p_op T_0F 0x2E (Some isXMM_XMMorMEM) NONE.
(* xbyak_mnemonic.h:1042 *)
Definition i_ud2 : E unit :=
  db 0x0F ;;; db 0x0B.
(* xbyak_mnemonic.h:1043 *)
Definition i_umonitor (p_r : Reg) : E unit :=
  fn tt (let v_idx := (getIdx p_r) in if (7 <? v_idx) then throw ERR_BAD_PARAMETER else let v_bit := (getBit p_r) in (when (negb (BIT =? v_bit)) do ((if (((BIT =? 32) && (v_bit =? 16)) || ((BIT =? 64) && (v_bit =? 32))) then db 0x67 else throw ERR_BAD_SIZE_OF_REGISTER))) ;;; db 0xF3 ;;; db 0x0F ;;; db 0xAE ;;; setModRM 3 6 v_idx).
(* xbyak_mnemonic.h:1044 *)
Definition i_umwait (p_r : Reg) : E unit :=
  fn tt (let v_idx := (getIdx p_r) in if (7 <? v_idx) then throw ERR_BAD_PARAMETER else db 0xF2 ;;; db 0x0F ;;; db 0xAE ;;; setModRM 3 6 v_idx).
(* xbyak_mnemonic.h:1045 *)
Definition i_unpckhpd (p_xmm : Reg) (p_op : Operand) : E unit :=
  opSSE p_xmm p_op (T_0F ||| T_66) 0x15 (Some isXMM_XMMorMEM) NONE.
(* xbyak_mnemonic.h:1046 *)
Definition i_unpckhps (p_xmm : Reg) (p_op : Operand) : E unit :=
  opSSE p_xmm p_op T_0F 0x15 (Some isXMM_XMMorMEM) NONE.
(* xbyak_mnemonic.h:1047 *)
Definition i_unpcklpd (p_xmm : Reg) (p_op : Operand) : E unit :=
  opSSE p_xmm p_op (T_0F ||| T_66) 0x14 (Some isXMM_XMMorMEM) NONE.
(* xbyak_mnemonic.h:1048 *)
Definition i_unpcklps (p_xmm : Reg) (p_op : Operand) : E unit :=
  opSSE p_xmm p_op T_0F 0x14 (Some isXMM_XMMorMEM) NONE.
(* xbyak_mnemonic.h:1049 *)
Definition i_vaddpd (p_xmm : Reg) (p_op1 : Operand) (p_op2 : Operand) : E unit :=
  opAVX_X_X_XM p_xmm p_op1 p_op2 ((((((T_0F ||| T_66) ||| T_EW1) ||| T_YMM) ||| T_EVEX) ||| T_ER_Z) ||| T_B64) 0x58 NONE.
(* xbyak_mnemonic.h:1050 *)
Definition i_vaddps (p_xmm : Reg) (p_op1 : Operand) (p_op2 : Operand) : E unit :=
  opAVX_X_X_XM p_xmm p_op1 p_op2 (((((T_0F ||| T_EW0) ||| T_YMM) ||| T_EVEX) ||| T_ER_Z) ||| T_B32) 0x58 NONE.
(* xbyak_mnemonic.h:1051 *)
Definition i_vaddsd (p_xmm : Reg) (p_op1 : Operand) (p_op2 : Operand) : E unit :=
  opAVX_X_X_XM p_xmm p_op1 p_op2 (((((T_0F ||| T_F2) ||| T_EW1) ||| T_EVEX) ||| T_ER_X) ||| T_N8) 0x58 NONE.
(* xbyak_mnemonic.h:1052 *)
Definition i_vaddss (p_xmm : Reg) (p_op1 : Operand) (p_op2 : Operand) : E unit :=
  opAVX_X_X_XM p_xmm p_op1 p_op2 (((((T_0F ||| T_F3) ||| T_EW0) ||| T_EVEX) ||| T_ER_X) ||| T_N4) 0x58 NONE.
(* xbyak_mnemonic.h:1053 *)
Definition i_vaddsubpd (p_xmm : Reg) (p_op1 : Operand) (p_op2 : Operand) : E unit :=
  opAVX_X_X_XM p_xmm p_op1 p_op2 ((T_66 ||| T_0F) ||| T_YMM) 0xD0 NONE.
(* xbyak_mnemonic.h:1054 *)
Definition i_vaddsubps (p_xmm : Reg) (p_op1 : Operand) (p_op2 : Operand) : E unit :=
  opAVX_X_X_XM p_xmm p_op1 p_op2 ((T_F2 ||| T_0F) ||| T_YMM) 0xD0 NONE.
(* xbyak_mnemonic.h:1055 *)
Definition i_vaesdec (p_xmm : Reg) (p_op1 : Operand) (p_op2 : Operand) : E unit :=
  opAVX_X_X_XM p_xmm p_op1 p_op2 (((T_66 ||| T_0F38) ||| T_YMM) ||| T_EVEX) 0xDE NONE.
(* xbyak_mnemonic.h:1056 *)
Definition i_vaesdeclast (p_xmm : Reg) (p_op1 : Operand) (p_op2 : Operand) : E unit :=
  opAVX_X_X_XM p_xmm p_op1 p_op2 (((T_66 ||| T_0F38) ||| T_YMM) ||| T_EVEX) 0xDF NONE.
(* xbyak_mnemonic.h:1057 *)
Definition i_vaesenc (p_xmm : Reg) (p_op1 : Operand) (p_op2 : Operand) : E unit :=
  opAVX_X_X_XM p_xmm p_op1 p_op2 (((T_66 ||| T_0F38) ||| T_YMM) ||| T_EVEX) 0xDC NONE.
(* xbyak_mnemonic.h:1058 *)
Definition i_vaesenclast (p_xmm : Reg) (p_op1 : Operand) (p_op2 : Operand) : E unit :=
  opAVX_X_X_XM p_xmm p_op1 p_op2 (((T_66 ||| T_0F38) ||| T_YMM) ||| T_EVEX) 0xDD NONE.
(* xbyak_mnemonic.h:1059 *)
Definition i_vaesimc (p_xm : Reg) (p_op : Operand) : E unit :=
  opAVX_X_XM_IMM p_xm p_op ((T_66 ||| T_0F38) ||| T_W0) 0xDB NONE.
(* xbyak_mnemonic.h:1060 *)
Definition i_vaeskeygenassist (p_xm : Reg) (p_op : Operand) (p_imm : Z) : E unit :=
  let p_imm := w8 p_imm in opAVX_X_XM_IMM p_xm p_op (T_66 ||| T_0F3A) 0xDF p_imm.
(* xbyak_mnemonic.h:1061 *)
Definition i_vandnpd (p_xmm : Reg) (p_op1 : Operand) (p_op2 : Operand) : E unit :=
  opAVX_X_X_XM p_xmm p_op1 p_op2 (((((T_0F ||| T_66) ||| T_EW1) ||| T_YMM) ||| T_EVEX) ||| T_B64) 0x55 NONE.
(* xbyak_mnemonic.h:1062 *)
Definition i_vandnps (p_xmm : Reg) (p_op1 : Operand) (p_op2 : Operand) : E unit :=
  opAVX_X_X_XM p_xmm p_op1 p_op2 ((((T_0F ||| T_EW0) ||| T_YMM) ||| T_EVEX) ||| T_B32) 0x55 NONE.
(* xbyak_mnemonic.h:1063 *)
Definition i_vandpd (p_xmm : Reg) (p_op1 : Operand) (p_op2 : Operand) : E unit :=
  opAVX_X_X_XM p_xmm p_op1 p_op2 (((((T_0F ||| T_66) ||| T_EW1) ||| T_YMM) ||| T_EVEX) ||| T_B64) 0x54 NONE.
(* xbyak_mnemonic.h:1064 *)
Definition i_vandps (p_xmm : Reg) (p_op1 : Operand) (p_op2 : Operand) : E unit :=
  opAVX_X_X_XM p_xmm p_op1 p_op2 ((((T_0F ||| T_EW0) ||| T_YMM) ||| T_EVEX) ||| T_B32) 0x54 NONE.
(* xbyak_mnemonic.h:1065 *)
Definition i_vbcstnebf162ps (p_x : Reg) (p_addr : Address) : E unit :=
  opVex p_x None (OMem p_addr) ((((T_F3 ||| T_0F38) ||| T_W0) ||| T_YMM) ||| T_B16) 0xB1 NONE.
(* xbyak_mnemonic.h:1066 *)
Definition i_vbcstnesh2ps (p_x : Reg) (p_addr : Address) : E unit :=
  opVex p_x None (OMem p_addr) ((((T_66 ||| T_0F38) ||| T_W0) ||| T_YMM) ||| T_B16) 0xB1 NONE.
(* xbyak_mnemonic.h:1067 *)
Definition i_vblendpd_xxoi (p_x1 : Reg) (p_x2 : Reg) (p_op : Operand) (p_imm : Z) : E unit :=
  let p_imm := w8 p_imm in opAVX_X_X_XM p_x1 (OReg p_x2) p_op (((T_66 ||| T_0F3A) ||| T_W0) ||| T_YMM) 0x0D p_imm.
(* xbyak_mnemonic.h:1068 *)
Definition i_vblendps_xxoi (p_x1 : Reg) (p_x2 : Reg) (p_op : Operand) (p_imm : Z) : E unit :=
  let p_imm := w8 p_imm in opAVX_X_X_XM p_x1 (OReg p_x2) p_op (((T_66 ||| T_0F3A) ||| T_W0) ||| T_YMM) 0x0C p_imm.
(* xbyak_mnemonic.h:1069 *)
Definition i_vblendvpd_xxox (p_x1 : Reg) (p_x2 : Reg) (p_op : Operand) (p_x4 : Reg) : E unit :=
  opAVX_X_X_XM p_x1 (OReg p_x2) p_op ((T_0F3A ||| T_66) ||| T_YMM) 0x4B ((getIdx p_x4) <<< 4).
(* xbyak_mnemonic.h:1070 *)
Definition i_vblendvps_xxox (p_x1 : Reg) (p_x2 : Reg) (p_op : Operand) (p_x4 : Reg) : E unit :=
  opAVX_X_X_XM p_x1 (OReg p_x2) p_op ((T_0F3A ||| T_66) ||| T_YMM) 0x4A ((getIdx p_x4) <<< 4).
(* xbyak_mnemonic.h:1071 *)
Definition i_vbroadcastf128 (p_y : Reg) (p_addr : Address) : E unit :=
  opAVX_X_XM_IMM p_y (OMem p_addr) (((T_0F38 ||| T_66) ||| T_W0) ||| T_YMM) 0x1A NONE.
(* xbyak_mnemonic.h:1072 *)
Definition i_vbroadcasti128 (p_y : Reg) (p_addr : Address) : E unit :=
  opAVX_X_XM_IMM p_y (OMem p_addr) (((T_0F38 ||| T_66) ||| T_W0) ||| T_YMM) 0x5A NONE.
(* xbyak_mnemonic.h:1073 *)
Definition i_vbroadcastsd (p_y : Reg) (p_op : Operand) : E unit :=
  fn tt (if (((negb (isMEM p_op)) && (negb ((isYMM p_y) && (isXMM (ob p_op))))) && (negb ((isZMM p_y) && (isXMM (ob p_op))))) then throw ERR_BAD_COMBINATION else opAVX_X_XM_IMM p_y p_op ((((((T_0F38 ||| T_66) ||| T_W0) ||| T_YMM) ||| T_EVEX) ||| T_EW1) ||| T_N8) 0x19 NONE).
(* xbyak_mnemonic.h:1074 *)
Definition i_vbroadcastss (p_x : Reg) (p_op : Operand) : E unit :=
  fn tt (if (negb ((isXMM (ob p_op)) || (isMEM p_op))) then throw ERR_BAD_COMBINATION else opAVX_X_XM_IMM p_x p_op (((((T_N4 ||| T_66) ||| T_0F38) ||| T_W0) ||| T_YMM) ||| T_EVEX) 0x18 NONE).
(* xbyak_mnemonic.h:1187 *)
Definition i_vcmppd_xxoi (p_x1 : Reg) (p_x2 : Reg) (p_op : Operand) (p_imm : Z) : E unit :=
  let p_imm := w8 p_imm in opAVX_X_X_XM p_x1 (OReg p_x2) p_op ((T_66 ||| T_0F) ||| T_YMM) 0xC2 p_imm.
(* xbyak_mnemonic.h:1075 *)
Definition i_vcmpeq_ospd_xxo (p_x1 : Reg) (p_x2 : Reg) (p_op : Operand) : E unit :=
  i_vcmppd_xxoi p_x1 p_x2 p_op 16.
(* xbyak_mnemonic.h:1188 *)
Definition i_vcmpps_xxoi (p_x1 : Reg) (p_x2 : Reg) (p_op : Operand) (p_imm : Z) : E unit :=
  let p_imm := w8 p_imm in opAVX_X_X_XM p_x1 (OReg p_x2) p_op (T_0F ||| T_YMM) 0xC2 p_imm.
(* xbyak_mnemonic.h:1076 *)
Definition i_vcmpeq_osps_xxo (p_x1 : Reg) (p_x2 : Reg) (p_op : Operand) : E unit :=
  i_vcmpps_xxoi p_x1 p_x2 p_op 16.
(* xbyak_mnemonic.h:1189 *)
Definition i_vcmpsd_xxoi (p_x1 : Reg) (p_x2 : Reg) (p_op : Operand) (p_imm : Z) : E unit :=
  let p_imm := w8 p_imm in opAVX_X_X_XM p_x1 (OReg p_x2) p_op (T_F2 ||| T_0F) 0xC2 p_imm.
(* xbyak_mnemonic.h:1077 *)
Definition i_vcmpeq_ossd_xxo (p_x1 : Reg) (p_x2 : Reg) (p_op : Operand) : E unit :=
  i_vcmpsd_xxoi p_x1 p_x2 p_op 16.
(* xbyak_mnemonic.h:1190 *)
Definition i_vcmpss_xxoi (p_x1 : Reg) (p_x2 : Reg) (p_op : Operand) (p_imm : Z) : E unit :=
  let p_imm := w8 p_imm in opAVX_X_X_XM p_x1 (OReg p_x2) p_op (T_F3 ||| T_0F) 0xC2 p_imm.
(* xbyak_mnemonic.h:1078 *)
Definition i_vcmpeq_osss_xxo (p_x1 : Reg) (p_x2 : Reg) (p_op : Operand) : E unit :=
  i_vcmpss_xxoi p_x1 p_x2 p_op 16.
(* xbyak_mnemonic.h:1079 *)
Definition i_vcmpeq_uqpd_xxo (p_x1 : Reg) (p_x2 : Reg) (p_op : Operand) : E unit :=
  i_vcmppd_xxoi p_x1 p_x2 p_op 8.
(* xbyak_mnemonic.h:1080 *)
Definition i_vcmpeq_uqps_xxo (p_x1 : Reg) (p_x2 : Reg) (p_op : Operand) : E unit :=
  i_vcmpps_xxoi p_x1 p_x2 p_op 8.
(* xbyak_mnemonic.h:1081 *)
Definition i_vcmpeq_uqsd_xxo (p_x1 : Reg) (p_x2 : Reg) (p_op : Operand) : E unit :=
  i_vcmpsd_xxoi p_x1 p_x2 p_op 8.
(* xbyak_mnemonic.h:1082 *)
Definition i_vcmpeq_uqss_xxo (p_x1 : Reg) (p_x2 : Reg) (p_op : Operand) : E unit :=
  i_vcmpss_xxoi p_x1 p_x2 p_op 8.
(* xbyak_mnemonic.h:1083 *)
Definition i_vcmpeq_uspd_xxo (p_x1 : Reg) (p_x2 : Reg) (p_op : Operand) : E unit :=
  i_vcmppd_xxoi p_x1 p_x2 p_op 24.
(* xbyak_mnemonic.h:1084 *)
Definition i_vcmpeq_usps_xxo (p_x1 : Reg) (p_x2 : Reg) (p_op : Operand) : E unit :=
  i_vcmpps_xxoi p_x1 p_x2 p_op 24.
(* xbyak_mnemonic.h:1085 *)
Definition i_vcmpeq_ussd_xxo (p_x1 : Reg) (p_x2 : Reg) (p_op : Operand) : E unit :=
  i_vcmpsd_xxoi p_x1 p_x2 p_op 24.
(* xbyak_mnemonic.h:1086 *)
Definition i_vcmpeq_usss_xxo (p_x1 : Reg) (p_x2 : Reg) (p_op : Operand) : E unit :=
  i_vcmpss_xxoi p_x1 p_x2 p_op 24.
(* xbyak_mnemonic.h:1087 *)
Definition i_vcmpeqpd_xxo (p_x1 : Reg) (p_x2 : Reg) (p_op : Operand) : E unit :=
  i_vcmppd_xxoi p_x1 p_x2 p_op 0.
(* xbyak_mnemonic.h:1088 *)
Definition i_vcmpeqps_xxo (p_x1 : Reg) (p_x2 : Reg) (p_op : Operand) : E unit :=
  i_vcmpps_xxoi p_x1 p_x2 p_op 0.
(* xbyak_mnemonic.h:1089 *)
Definition i_vcmpeqsd_xxo (p_x1 : Reg) (p_x2 : Reg) (p_op : Operand) : E unit :=
  i_vcmpsd_xxoi p_x1 p_x2 p_op 0.
(* xbyak_mnemonic.h:1090 *)
Definition i_vcmpeqss_xxo (p_x1 : Reg) (p_x2 : Reg) (p_op : Operand) : E unit :=
  i_vcmpss_xxoi p_x1 p_x2 p_op 0.
(* xbyak_mnemonic.h:1091 *)
Definition i_vcmpfalse_ospd_xxo (p_x1 : Reg) (p_x2 : Reg) (p_op : Operand) : E unit :=
  i_vcmppd_xxoi p_x1 p_x2 p_op 27.
(* xbyak_mnemonic.h:1092 *)
Definition i_vcmpfalse_osps_xxo (p_x1 : Reg) (p_x2 : Reg) (p_op : Operand) : E unit :=
  i_vcmpps_xxoi p_x1 p_x2 p_op 27.
(* xbyak_mnemonic.h:1093 *)
Definition i_vcmpfalse_ossd_xxo (p_x1 : Reg) (p_x2 : Reg) (p_op : Operand) : E unit :=
  i_vcmpsd_xxoi p_x1 p_x2 p_op 27.
(* xbyak_mnemonic.h:1094 *)
Definition i_vcmpfalse_osss_xxo (p_x1 : Reg) (p_x2 : Reg) (p_op : Operand) : E unit :=
  i_vcmpss_xxoi p_x1 p_x2 p_op 27.
(* xbyak_mnemonic.h:1095 *)
Definition i_vcmpfalsepd_xxo (p_x1 : Reg) (p_x2 : Reg) (p_op : Operand) : E unit :=
  i_vcmppd_xxoi p_x1 p_x2 p_op 11.
(* xbyak_mnemonic.h:1096 *)
Definition i_vcmpfalseps_xxo (p_x1 : Reg) (p_x2 : Reg) (p_op : Operand) : E unit :=
  i_vcmpps_xxoi p_x1 p_x2 p_op 11.
(* xbyak_mnemonic.h:1097 *)
Definition i_vcmpfalsesd_xxo (p_x1 : Reg) (p_x2 : Reg) (p_op : Operand) : E unit :=
  i_vcmpsd_xxoi p_x1 p_x2 p_op 11.
(* xbyak_mnemonic.h:1098 *)
Definition i_vcmpfalsess_xxo (p_x1 : Reg) (p_x2 : Reg) (p_op : Operand) : E unit :=
  i_vcmpss_xxoi p_x1 p_x2 p_op 11.
(* xbyak_mnemonic.h:1099 *)
Definition i_vcmpge_oqpd_xxo (p_x1 : Reg) (p_x2 : Reg) (p_op : Operand) : E unit :=
  i_vcmppd_xxoi p_x1 p_x2 p_op 29.
(* xbyak_mnemonic.h:1100 *)
Definition i_vcmpge_oqps_xxo (p_x1 : Reg) (p_x2 : Reg) (p_op : Operand) : E unit :=
  i_vcmpps_xxoi p_x1 p_x2 p_op 29.
(* xbyak_mnemonic.h:1101 *)
Definition i_vcmpge_oqsd_xxo (p_x1 : Reg) (p_x2 : Reg) (p_op : Operand) : E unit :=
  i_vcmpsd_xxoi p_x1 p_x2 p_op 29.
(* xbyak_mnemonic.h:1102 *)
Definition i_vcmpge_oqss_xxo (p_x1 : Reg) (p_x2 : Reg) (p_op : Operand) : E unit :=
  i_vcmpss_xxoi p_x1 p_x2 p_op 29.
(* xbyak_mnemonic.h:1103 *)
Definition i_vcmpgepd_xxo (p_x1 : Reg) (p_x2 : Reg) (p_op : Operand) : E unit :=
  i_vcmppd_xxoi p_x1 p_x2 p_op 13.
(* xbyak_mnemonic.h:1104 *)
Definition i_vcmpgeps_xxo (p_x1 : Reg) (p_x2 : Reg) (p_op : Operand) : E unit :=
  i_vcmpps_xxoi p_x1 p_x2 p_op 13.
(* xbyak_mnemonic.h:1105 *)
Definition i_vcmpgesd_xxo (p_x1 : Reg) (p_x2 : Reg) (p_op : Operand) : E unit :=
  i_vcmpsd_xxoi p_x1 p_x2 p_op 13.
(* xbyak_mnemonic.h:1106 *)
Definition i_vcmpgess_xxo (p_x1 : Reg) (p_x2 : Reg) (p_op : Operand) : E unit :=
  i_vcmpss_xxoi p_x1 p_x2 p_op 13.
(* xbyak_mnemonic.h:1107 *)
Definition i_vcmpgt_oqpd_xxo (p_x1 : Reg) (p_x2 : Reg) (p_op : Operand) : E unit :=
  i_vcmppd_xxoi p_x1 p_x2 p_op 30.
(* xbyak_mnemonic.h:1108 *)
Definition i_vcmpgt_oqps_xxo (p_x1 : Reg) (p_x2 : Reg) (p_op : Operand) : E unit :=
  i_vcmpps_xxoi p_x1 p_x2 p_op 30.
(* xbyak_mnemonic.h:1109 *)
Definition i_vcmpgt_oqsd_xxo (p_x1 : Reg) (p_x2 : Reg) (p_op : Operand) : E unit :=
  i_vcmpsd_xxoi p_x1 p_x2 p_op 30.
(* xbyak_mnemonic.h:1110 *)
Definition i_vcmpgt_oqss_xxo (p_x1 : Reg) (p_x2 : Reg) (p_op : Operand) : E unit :=
  i_vcmpss_xxoi p_x1 p_x2 p_op 30.
(* xbyak_mnemonic.h:1111 *)
Definition i_vcmpgtpd_xxo (p_x1 : Reg) (p_x2 : Reg) (p_op : Operand) : E unit :=
  i_vcmppd_xxoi p_x1 p_x2 p_op 14.
(* xbyak_mnemonic.h:1112 *)
Definition i_vcmpgtps_xxo (p_x1 : Reg) (p_x2 : Reg) (p_op : Operand) : E unit :=
  i_vcmpps_xxoi p_x1 p_x2 p_op 14.
(* xbyak_mnemonic.h:1113 *)
Definition i_vcmpgtsd_xxo (p_x1 : Reg) (p_x2 : Reg) (p_op : Operand) : E unit :=
  i_vcmpsd_xxoi p_x1 p_x2 p_op 14.
(* xbyak_mnemonic.h:1114 *)
Definition i_vcmpgtss_xxo (p_x1 : Reg) (p_x2 : Reg) (p_op : Operand) : E unit :=
  i_vcmpss_xxoi p_x1 p_x2 p_op 14.
(* xbyak_mnemonic.h:1115 *)
Definition i_vcmple_oqpd_xxo (p_x1 : Reg) (p_x2 : Reg) (p_op : Operand) : E unit :=
  i_vcmppd_xxoi p_x1 p_x2 p_op 18.
(* xbyak_mnemonic.h:1116 *)
Definition i_vcmple_oqps_xxo (p_x1 : Reg) (p_x2 : Reg) (p_op : Operand) : E unit :=
  i_vcmpps_xxoi p_x1 p_x2 p_op 18.
(* xbyak_mnemonic.h:1117 *)
Definition i_vcmple_oqsd_xxo (p_x1 : Reg) (p_x2 : Reg) (p_op : Operand) : E unit :=
  i_vcmpsd_xxoi p_x1 p_x2 p_op 18.
(* xbyak_mnemonic.h:1118 *)
Definition i_vcmple_oqss_xxo (p_x1 : Reg) (p_x2 : Reg) (p_op : Operand) : E unit :=
  i_vcmpss_xxoi p_x1 p_x2 p_op 18.
(* xbyak_mnemonic.h:1119 *)
Definition i_vcmplepd_xxo (p_x1 : Reg) (p_x2 : Reg) (p_op : Operand) : E unit :=
  i_vcmppd_xxoi p_x1 p_x2 p_op 2.
(* xbyak_mnemonic.h:1120 *)
Definition i_vcmpleps_xxo (p_x1 : Reg) (p_x2 : Reg) (p_op : Operand) : E unit :=
  i_vcmpps_xxoi p_x1 p_x2 p_op 2.
(* xbyak_mnemonic.h:1121 *)
Definition i_vcmplesd_xxo (p_x1 : Reg) (p_x2 : Reg) (p_op : Operand) : E unit :=
  i_vcmpsd_xxoi p_x1 p_x2 p_op 2.
(* xbyak_mnemonic.h:1122 *)
Definition i_vcmpless_xxo (p_x1 : Reg) (p_x2 : Reg) (p_op : Operand) : E unit :=
  i_vcmpss_xxoi p_x1 p_x2 p_op 2.
(* xbyak_mnemonic.h:1123 *)
Definition i_vcmplt_oqpd_xxo (p_x1 : Reg) (p_x2 : Reg) (p_op : Operand) : E unit :=
  i_vcmppd_xxoi p_x1 p_x2 p_op 17.
(* xbyak_mnemonic.h:1124 *)
Definition i_vcmplt_oqps_xxo (p_x1 : Reg) (p_x2 : Reg) (p_op : Operand) : E unit :=
  i_vcmpps_xxoi p_x1 p_x2 p_op 17.
(* xbyak_mnemonic.h:1125 *)
Definition i_vcmplt_oqsd_xxo (p_x1 : Reg) (p_x2 : Reg) (p_op : Operand) : E unit :=
  i_vcmpsd_xxoi p_x1 p_x2 p_op 17.
(* xbyak_mnemonic.h:1126 *)
Definition i_vcmplt_oqss_xxo (p_x1 : Reg) (p_x2 : Reg) (p_op : Operand) : E unit :=
  i_vcmpss_xxoi p_x1 p_x2 p_op 17.
(* xbyak_mnemonic.h:1127 *)
Definition i_vcmpltpd_xxo (p_x1 : Reg) (p_x2 : Reg) (p_op : Operand) : E unit :=
  i_vcmppd_xxoi p_x1 p_x2 p_op 1.
(* xbyak_mnemonic.h:1128 *)
Definition i_vcmpltps_xxo (p_x1 : Reg) (p_x2 : Reg) (p_op : Operand) : E unit :=
  i_vcmpps_xxoi p_x1 p_x2 p_op 1.
(* xbyak_mnemonic.h:1129 *)
Definition i_vcmpltsd_xxo (p_x1 : Reg) (p_x2 : Reg) (p_op : Operand) : E unit :=
  i_vcmpsd_xxoi p_x1 p_x2 p_op 1.
(* xbyak_mnemonic.h:1130 *)
Definition i_vcmpltss_xxo (p_x1 : Reg) (p_x2 : Reg) (p_op : Operand) : E unit :=
  i_vcmpss_xxoi p_x1 p_x2 p_op 1.
(* xbyak_mnemonic.h:1131 *)
Definition i_vcmpneq_oqpd_xxo (p_x1 : Reg) (p_x2 : Reg) (p_op : Operand) : E unit :=
  i_vcmppd_xxoi p_x1 p_x2 p_op 12.
(* xbyak_mnemonic.h:1132 *)
Definition i_vcmpneq_oqps_xxo (p_x1 : Reg) (p_x2 : Reg) (p_op : Operand) : E unit :=
  i_vcmpps_xxoi p_x1 p_x2 p_op 12.
(* xbyak_mnemonic.h:1133 *)
Definition i_vcmpneq_oqsd_xxo (p_x1 : Reg) (p_x2 : Reg) (p_op : Operand) : E unit :=
  i_vcmpsd_xxoi p_x1 p_x2 p_op 12.
(* xbyak_mnemonic.h:1134 *)
Definition i_vcmpneq_oqss_xxo (p_x1 : Reg) (p_x2 : Reg) (p_op : Operand) : E unit :=
  i_vcmpss_xxoi p_x1 p_x2 p_op 12.
(* xbyak_mnemonic.h:1135 *)
Definition i_vcmpneq_ospd_xxo (p_x1 : Reg) (p_x2 : Reg) (p_op : Operand) : E unit :=
  i_vcmppd_xxoi p_x1 p_x2 p_op 28.
(* xbyak_mnemonic.h:1136 *)
Definition i_vcmpneq_osps_xxo (p_x1 : Reg) (p_x2 : Reg) (p_op : Operand) : E unit :=
  i_vcmpps_xxoi p_x1 p_x2 p_op 28.
(* xbyak_mnemonic.h:1137 *)
Definition i_vcmpneq_ossd_xxo (p_x1 : Reg) (p_x2 : Reg) (p_op : Operand) : E unit :=
  i_vcmpsd_xxoi p_x1 p_x2 p_op 28.
(* xbyak_mnemonic.h:1138 *)
Definition i_vcmpneq_osss_xxo (p_x1 : Reg) (p_x2 : Reg) (p_op : Operand) : E unit :=
  i_vcmpss_xxoi p_x1 p_x2 p_op 28.
(* xbyak_mnemonic.h:1139 *)
Definition i_vcmpneq_uspd_xxo (p_x1 : Reg) (p_x2 : Reg) (p_op : Operand) : E unit :=
  i_vcmppd_xxoi p_x1 p_x2 p_op 20.
(* xbyak_mnemonic.h:1140 *)
Definition i_vcmpneq_usps_xxo (p_x1 : Reg) (p_x2 : Reg) (p_op : Operand) : E unit :=
  i_vcmpps_xxoi p_x1 p_x2 p_op 20.
(* xbyak_mnemonic.h:1141 *)
Definition i_vcmpneq_ussd_xxo (p_x1 : Reg) (p_x2 : Reg) (p_op : Operand) : E unit :=
  i_vcmpsd_xxoi p_x1 p_x2 p_op 20.
(* xbyak_mnemonic.h:1142 *)
Definition i_vcmpneq_usss_xxo (p_x1 : Reg) (p_x2 : Reg) (p_op : Operand) : E unit :=
  i_vcmpss_xxoi p_x1 p_x2 p_op 20.
(* xbyak_mnemonic.h:1143 *)
Definition i_vcmpneqpd_xxo (p_x1 : Reg) (p_x2 : Reg) (p_op : Operand) : E unit :=
  i_vcmppd_xxoi p_x1 p_x2 p_op 4.
(* xbyak_mnemonic.h:1144 *)
Definition i_vcmpneqps_xxo (p_x1 : Reg) (p_x2 : Reg) (p_op : Operand) : E unit :=
  i_vcmpps_xxoi p_x1 p_x2 p_op 4.
(* xbyak_mnemonic.h:1145 *)
Definition i_vcmpneqsd_xxo (p_x1 : Reg) (p_x2 : Reg) (p_op : Operand) : E unit :=
  i_vcmpsd_xxoi p_x1 p_x2 p_op 4.
(* xbyak_mnemonic.h:1146 *)
Definition i_vcmpneqss_xxo (p_x1 : Reg) (p_x2 : Reg) (p_op : Operand) : E unit :=
  i_vcmpss_xxoi p_x1 p_x2 p_op 4.
(* xbyak_mnemonic.h:1147 *)
Definition i_vcmpnge_uqpd_xxo (p_x1 : Reg) (p_x2 : Reg) (p_op : Operand) : E unit :=
  i_vcmppd_xxoi p_x1 p_x2 p_op 25.
(* xbyak_mnemonic.h:1148 *)
Definition i_vcmpnge_uqps_xxo (p_x1 : Reg) (p_x2 : Reg) (p_op : Operand) : E unit :=
  i_vcmpps_xxoi p_x1 p_x2 p_op 25.
(* xbyak_mnemonic.h:1149 *)
Definition i_vcmpnge_uqsd_xxo (p_x1 : Reg) (p_x2 : Reg) (p_op : Operand) : E unit :=
  i_vcmpsd_xxoi p_x1 p_x2 p_op 25.
(* xbyak_mnemonic.h:1150 *)
Definition i_vcmpnge_uqss_xxo (p_x1 : Reg) (p_x2 : Reg) (p_op : Operand) : E unit :=
  i_vcmpss_xxoi p_x1 p_x2 p_op 25.
(* xbyak_mnemonic.h:1151 *)
Definition i_vcmpngepd_xxo (p_x1 : Reg) (p_x2 : Reg) (p_op : Operand) : E unit :=
  i_vcmppd_xxoi p_x1 p_x2 p_op 9.
(* xbyak_mnemonic.h:1152 *)
Definition i_vcmpngeps_xxo (p_x1 : Reg) (p_x2 : Reg) (p_op : Operand) : E unit :=
  i_vcmpps_xxoi p_x1 p_x2 p_op 9.
(* xbyak_mnemonic.h:1153 *)
Definition i_vcmpngesd_xxo (p_x1 : Reg) (p_x2 : Reg) (p_op : Operand) : E unit :=
  i_vcmpsd_xxoi p_x1 p_x2 p_op 9.
(* xbyak_mnemonic.h:1154 *)
Definition i_vcmpngess_xxo (p_x1 : Reg) (p_x2 : Reg) (p_op : Operand) : E unit :=
  i_vcmpss_xxoi p_x1 p_x2 p_op 9.
(* xbyak_mnemonic.h:1155 *)
Definition i_vcmpngt_uqpd_xxo (p_x1 : Reg) (p_x2 : Reg) (p_op : Operand) : E unit :=
  i_vcmppd_xxoi p_x1 p_x2 p_op 26.
(* xbyak_mnemonic.h:1156 *)
Definition i_vcmpngt_uqps_xxo (p_x1 : Reg) (p_x2 : Reg) (p_op : Operand) : E unit :=
  i_vcmpps_xxoi p_x1 p_x2 p_op 26.
(* xbyak_mnemonic.h:1157 *)
Definition i_vcmpngt_uqsd_xxo (p_x1 : Reg) (p_x2 : Reg) (p_op : Operand) : E unit :=
  i_vcmpsd_xxoi p_x1 p_x2 p_op 26.
(* xbyak_mnemonic.h:1158 *)
Definition i_vcmpngt_uqss_xxo (p_x1 : Reg) (p_x2 : Reg) (p_op : Operand) : E unit :=
  i_vcmpss_xxoi p_x1 p_x2 p_op 26.
(* xbyak_mnemonic.h:1159 *)
Definition i_vcmpngtpd_xxo (p_x1 : Reg) (p_x2 : Reg) (p_op : Operand) : E unit :=
  i_vcmppd_xxoi p_x1 p_x2 p_op 10.
(* xbyak_mnemonic.h:1160 *)
Definition i_vcmpngtps_xxo (p_x1 : Reg) (p_x2 : Reg) (p_op : Operand) : E unit :=
  i_vcmpps_xxoi p_x1 p_x2 p_op 10.
(* xbyak_mnemonic.h:1161 *)
Definition i_vcmpngtsd_xxo (p_x1 : Reg) (p_x2 : Reg) (p_op : Operand) : E unit :=
  i_vcmpsd_xxoi p_x1 p_x2 p_op 10.
(* xbyak_mnemonic.h:1162 *)
Definition i_vcmpngtss_xxo (p_x1 : Reg) (p_x2 : Reg) (p_op : Operand) : E unit :=
  i_vcmpss_xxoi p_x1 p_x2 p_op 10.
(* xbyak_mnemonic.h:1163 *)
Definition i_vcmpnle_uqpd_xxo (p_x1 : Reg) (p_x2 : Reg) (p_op : Operand) : E unit :=
  i_vcmppd_xxoi p_x1 p_x2 p_op 22.
(* xbyak_mnemonic.h:1164 *)
Definition i_vcmpnle_uqps_xxo (p_x1 : Reg) (p_x2 : Reg) (p_op : Operand) : E unit :=
  i_vcmpps_xxoi p_x1 p_x2 p_op 22.
(* xbyak_mnemonic.h:1165 *)
Definition i_vcmpnle_uqsd_xxo (p_x1 : Reg) (p_x2 : Reg) (p_op : Operand) : E unit :=
  i_vcmpsd_xxoi p_x1 p_x2 p_op 22.
(* xbyak_mnemonic.h:1166 *)
Definition i_vcmpnle_uqss_xxo (p_x1 : Reg) (p_x2 : Reg) (p_op : Operand) : E unit :=
  i_vcmpss_xxoi p_x1 p_x2 p_op 22.
(* xbyak_mnemonic.h:1167 *)
Definition i_vcmpnlepd_xxo (p_x1 : Reg) (p_x2 : Reg) (p_op : Operand) : E unit :=
  i_vcmppd_xxoi p_x1 p_x2 p_op 6.
(* xbyak_mnemonic.h:1168 *)
Definition i_vcmpnleps_xxo (p_x1 : Reg) (p_x2 : Reg) (p_op : Operand) : E unit :=
  i_vcmpps_xxoi p_x1 p_x2 p_op 6.
(* xbyak_mnemonic.h:1169 *)
Definition i_vcmpnlesd_xxo (p_x1 : Reg) (p_x2 : Reg) (p_op : Operand) : E unit :=
  i_vcmpsd_xxoi p_x1 p_x2 p_op 6.
(* xbyak_mnemonic.h:1170 *)
Definition i_vcmpnless_xxo (p_x1 : Reg) (p_x2 : Reg) (p_op : Operand) : E unit :=
  i_vcmpss_xxoi p_x1 p_x2 p_op 6.
(* xbyak_mnemonic.h:1171 *)
Definition i_vcmpnlt_uqpd_xxo (p_x1 : Reg) (p_x2 : Reg) (p_op : Operand) : E unit :=
  i_vcmppd_xxoi p_x1 p_x2 p_op 21.
(* xbyak_mnemonic.h:1172 *)
Definition i_vcmpnlt_uqps_xxo (p_x1 : Reg) (p_x2 : Reg) (p_op : Operand) : E unit :=
  i_vcmpps_xxoi p_x1 p_x2 p_op 21.
(* xbyak_mnemonic.h:1173 *)
Definition i_vcmpnlt_uqsd_xxo (p_x1 : Reg) (p_x2 : Reg) (p_op : Operand) : E unit :=
  i_vcmpsd_xxoi p_x1 p_x2 p_op 21.
(* xbyak_mnemonic.h:1174 *)
Definition i_vcmpnlt_uqss_xxo (p_x1 : Reg) (p_x2 : Reg) (p_op : Operand) : E unit :=
  i_vcmpss_xxoi p_x1 p_x2 p_op 21.
(* xbyak_mnemonic.h:1175 *)
Definition i_vcmpnltpd_xxo (p_x1 : Reg) (p_x2 : Reg) (p_op : Operand) : E unit :=
  i_vcmppd_xxoi p_x1 p_x2 p_op 5.
(* xbyak_mnemonic.h:1176 *)
Definition i_vcmpnltps_xxo (p_x1 : Reg) (p_x2 : Reg) (p_op : Operand) : E unit :=
  i_vcmpps_xxoi p_x1 p_x2 p_op 5.
(* xbyak_mnemonic.h:1177 *)
Definition i_vcmpnltsd_xxo (p_x1 : Reg) (p_x2 : Reg) (p_op : Operand) : E unit :=
  i_vcmpsd_xxoi p_x1 p_x2 p_op 5.
(* xbyak_mnemonic.h:1178 *)
Definition i_vcmpnltss_xxo (p_x1 : Reg) (p_x2 : Reg) (p_op : Operand) : E unit :=
  i_vcmpss_xxoi p_x1 p_x2 p_op 5.
(* xbyak_mnemonic.h:1179 *)
Definition i_vcmpord_spd_xxo (p_x1 : Reg) (p_x2 : Reg) (p_op : Operand) : E unit :=
  i_vcmppd_xxoi p_x1 p_x2 p_op 23.
(* xbyak_mnemonic.h:1180 *)
Definition i_vcmpord_sps_xxo (p_x1 : Reg) (p_x2 : Reg) (p_op : Operand) : E unit :=
  i_vcmpps_xxoi p_x1 p_x2 p_op 23.
(* xbyak_mnemonic.h:1181 *)
Definition i_vcmpord_ssd_xxo (p_x1 : Reg) (p_x2 : Reg) (p_op : Operand) : E unit :=
  i_vcmpsd_xxoi p_x1 p_x2 p_op 23.
(* xbyak_mnemonic.h:1182 *)
Definition i_vcmpord_sss_xxo (p_x1 : Reg) (p_x2 : Reg) (p_op : Operand) : E unit :=
  i_vcmpss_xxoi p_x1 p_x2 p_op 23.
(* xbyak_mnemonic.h:1183 *)
Definition i_vcmpordpd_xxo (p_x1 : Reg) (p_x2 : Reg) (p_op : Operand) : E unit :=
  i_vcmppd_xxoi p_x1 p_x2 p_op 7.
(* xbyak_mnemonic.h:1184 *)
Definition i_vcmpordps_xxo (p_x1 : Reg) (p_x2 : Reg) (p_op : Operand) : E unit :=
  i_vcmpps_xxoi p_x1 p_x2 p_op 7.
(* xbyak_mnemonic.h:1185 *)
Definition i_vcmpordsd_xxo (p_x1 : Reg) (p_x2 : Reg) (p_op : Operand) : E unit :=
  i_vcmpsd_xxoi p_x1 p_x2 p_op 7.
(* xbyak_mnemonic.h:1186 *)
Definition i_vcmpordss_xxo (p_x1 : Reg) (p_x2 : Reg) (p_op : Operand) : E unit :=
  i_vcmpss_xxoi p_x1 p_x2 p_op 7.
(* xbyak_mnemonic.h:1191 *)
Definition i_vcmptrue_uspd_xxo (p_x1 : Reg) (p_x2 : Reg) (p_op : Operand) : E unit :=
  i_vcmppd_xxoi p_x1 p_x2 p_op 31.
(* xbyak_mnemonic.h:1192 *)
Definition i_vcmptrue_usps_xxo (p_x1 : Reg) (p_x2 : Reg) (p_op : Operand) : E unit :=
  i_vcmpps_xxoi p_x1 p_x2 p_op 31.
(* xbyak_mnemonic.h:1193 *)
Definition i_vcmptrue_ussd_xxo (p_x1 : Reg) (p_x2 : Reg) (p_op : Operand) : E unit :=
  i_vcmpsd_xxoi p_x1 p_x2 p_op 31.
(* xbyak_mnemonic.h:1194 *)
Definition i_vcmptrue_usss_xxo (p_x1 : Reg) (p_x2 : Reg) (p_op : Operand) : E unit :=
  i_vcmpss_xxoi p_x1 p_x2 p_op 31.
(* xbyak_mnemonic.h:1195 *)
Definition i_vcmptruepd_xxo (p_x1 : Reg) (p_x2 : Reg) (p_op : Operand) : E unit :=
  i_vcmppd_xxoi p_x1 p_x2 p_op 15.
(* xbyak_mnemonic.h:1196 *)
Definition i_vcmptrueps_xxo (p_x1 : Reg) (p_x2 : Reg) (p_op : Operand) : E unit :=
  i_vcmpps_xxoi p_x1 p_x2 p_op 15.
(* xbyak_mnemonic.h:1197 *)
Definition i_vcmptruesd_xxo (p_x1 : Reg) (p_x2 : Reg) (p_op : Operand) : E unit :=
  i_vcmpsd_xxoi p_x1 p_x2 p_op 15.
(* xbyak_mnemonic.h:1198 *)
Definition i_vcmptruess_xxo (p_x1 : Reg) (p_x2 : Reg) (p_op : Operand) : E unit :=
  i_vcmpss_xxoi p_x1 p_x2 p_op 15.
(* xbyak_mnemonic.h:1199 *)
Definition i_vcmpunord_spd_xxo (p_x1 : Reg) (p_x2 : Reg) (p_op : Operand) : E unit :=
  i_vcmppd_xxoi p_x1 p_x2 p_op 19.
(* xbyak_mnemonic.h:1200 *)
Definition i_vcmpunord_sps_xxo (p_x1 : Reg) (p_x2 : Reg) (p_op : Operand) : E unit :=
  i_vcmpps_xxoi p_x1 p_x2 p_op 19.
(* xbyak_mnemonic.h:1201 *)
Definition i_vcmpunord_ssd_xxo (p_x1 : Reg) (p_x2 : Reg) (p_op : Operand) : E unit :=
  i_vcmpsd_xxoi p_x1 p_x2 p_op 19.
(* xbyak_mnemonic.h:1202 *)
Definition i_vcmpunord_sss_xxo (p_x1 : Reg) (p_x2 : Reg) (p_op : Operand) : E unit :=
  i_vcmpss_xxoi p_x1 p_x2 p_op 19.
(* xbyak_mnemonic.h:1203 *)
Definition i_vcmpunordpd_xxo (p_x1 : Reg) (p_x2 : Reg) (p_op : Operand) : E unit :=
  i_vcmppd_xxoi p_x1 p_x2 p_op 3.
(* xbyak_mnemonic.h:1204 *)
Definition i_vcmpunordps_xxo (p_x1 : Reg) (p_x2 : Reg) (p_op : Operand) : E unit :=
  i_vcmpps_xxoi p_x1 p_x2 p_op 3.
(* xbyak_mnemonic.h:1205 *)
Definition i_vcmpunordsd_xxo (p_x1 : Reg) (p_x2 : Reg) (p_op : Operand) : E unit :=
  i_vcmpsd_xxoi p_x1 p_x2 p_op 3.
(* xbyak_mnemonic.h:1206 *)
Definition i_vcmpunordss_xxo (p_x1 : Reg) (p_x2 : Reg) (p_op : Operand) : E unit :=
  i_vcmpss_xxoi p_x1 p_x2 p_op 3.
(* xbyak_mnemonic.h:1207 *)
Definition i_vcomisd (p_xm : Reg) (p_op : Operand) : E unit :=
  opAVX_X_XM_IMM p_xm p_op (((((T_N8 ||| T_66) ||| T_0F) ||| T_EW1) ||| T_EVEX) ||| T_SAE_X) 0x2F NONE.
(* xbyak_mnemonic.h:1208 *)
Definition i_vcomiss (p_xm : Reg) (p_op : Operand) : E unit :=
  opAVX_X_XM_IMM p_xm p_op ((((T_N4 ||| T_0F) ||| T_EW0) ||| T_EVEX) ||| T_SAE_X) 0x2F NONE.
(* xbyak_mnemonic.h:1209 *)
Definition i_vcvtdq2pd (p_x : Reg) (p_op : Operand) : E unit :=
  checkCvt1 (OReg p_x) p_op ;;; opVex p_x None p_op (((((((T_0F ||| T_F3) ||| T_YMM) ||| T_EVEX) ||| T_EW0) ||| T_B32) ||| T_N8) ||| T_N_VL) 0xE6 NONE.
(* xbyak_mnemonic.h:1210 *)
Definition i_vcvtdq2ps (p_xm : Reg) (p_op : Operand) : E unit :=
  opAVX_X_XM_IMM p_xm p_op (((((T_0F ||| T_EW0) ||| T_YMM) ||| T_EVEX) ||| T_ER_Z) ||| T_B32) 0x5B NONE.
(* xbyak_mnemonic.h:1211 *)
Definition i_vcvtneebf162ps (p_x : Reg) (p_addr : Address) : E unit :=
  opVex p_x None (OMem p_addr) (((T_F3 ||| T_0F38) ||| T_W0) ||| T_YMM) 0xB0 NONE.
(* xbyak_mnemonic.h:1212 *)
Definition i_vcvtneeph2ps (p_x : Reg) (p_addr : Address) : E unit :=
  opVex p_x None (OMem p_addr) (((T_66 ||| T_0F38) ||| T_W0) ||| T_YMM) 0xB0 NONE.
(* xbyak_mnemonic.h:1213 *)
Definition i_vcvtneobf162ps (p_x : Reg) (p_addr : Address) : E unit :=
  opVex p_x None (OMem p_addr) (((T_F2 ||| T_0F38) ||| T_W0) ||| T_YMM) 0xB0 NONE.
(* xbyak_mnemonic.h:1214 *)
Definition i_vcvtneoph2ps (p_x : Reg) (p_addr : Address) : E unit :=
  opVex p_x None (OMem p_addr) ((T_0F38 ||| T_W0) ||| T_YMM) 0xB0 NONE.
(* xbyak_mnemonic.h:1215 *)
Definition i_vcvtneps2bf16 (p_x : Reg) (p_op : Operand) (p_encoding : PreferredEncoding) : E unit :=
  t0 <- orEvexIf p_encoding 0 T_MUST_EVEX 0 ;; opCvt2 p_x p_op ((((((T_F3 ||| T_0F38) ||| T_EW0) ||| T_YMM) ||| T_SAE_Z) ||| T_B32) ||| t0) 0x72.
(* xbyak_mnemonic.h:1216 *)
Definition i_vcvtpd2dq (p_x : Reg) (p_op : Operand) : E unit :=
  opCvt2 p_x p_op ((((((T_0F ||| T_F2) ||| T_YMM) ||| T_EVEX) ||| T_EW1) ||| T_B64) ||| T_ER_Z) 0xE6.
(* xbyak_mnemonic.h:1217 *)
Definition i_vcvtpd2ps (p_x : Reg) (p_op : Operand) : E unit :=
  opCvt2 p_x p_op ((((((T_0F ||| T_66) ||| T_YMM) ||| T_EVEX) ||| T_EW1) ||| T_B64) ||| T_ER_Z) 0x5A.
(* xbyak_mnemonic.h:1218 *)
Definition i_vcvtph2ps (p_x : Reg) (p_op : Operand) : E unit :=
  checkCvt1 (OReg p_x) p_op ;;; opVex p_x None p_op (((((((T_0F38 ||| T_66) ||| T_W0) ||| T_EVEX) ||| T_EW0) ||| T_N8) ||| T_N_VL) ||| T_SAE_Y) 0x13 NONE.
(* xbyak_mnemonic.h:1219 *)
Definition i_vcvtps2dq (p_xm : Reg) (p_op : Operand) : E unit :=
  opAVX_X_XM_IMM p_xm p_op ((((((T_66 ||| T_0F) ||| T_EW0) ||| T_YMM) ||| T_EVEX) ||| T_ER_Z) ||| T_B32) 0x5B NONE.
(* xbyak_mnemonic.h:1220 *)
Definition i_vcvtps2pd (p_x : Reg) (p_op : Operand) : E unit :=
  checkCvt1 (OReg p_x) p_op ;;; opVex p_x None p_op (((((((T_0F ||| T_YMM) ||| T_EVEX) ||| T_EW0) ||| T_B32) ||| T_N8) ||| T_N_VL) ||| T_SAE_Y) 0x5A NONE.
(* xbyak_mnemonic.h:1221 *)
Definition i_vcvtps2ph (p_op : Operand) (p_x : Reg) (p_imm : Z) : E unit :=
  let p_imm := w8 p_imm in checkCvt1 (OReg p_x) p_op ;;; opVex p_x None p_op ((((((((T_0F3A ||| T_66) ||| T_W0) ||| T_EVEX) ||| T_EW0) ||| T_N8) ||| T_N_VL) ||| T_SAE_Y) ||| T_M_K) 0x1D p_imm.
(* xbyak_mnemonic.h:1222 *)
Definition i_vcvtsd2si_do (p_r : Reg) (p_op : Operand) : E unit :=
  opAVX_X_X_XM (Xmm (getIdx p_r)) (OReg (Xmm 0)) p_op ((((((T_0F ||| T_F2) ||| T_W0) ||| T_EVEX) ||| T_EW0) ||| T_N4) ||| T_ER_X) 0x2D NONE.
(* xbyak_mnemonic.h:1223 *)
Definition i_vcvtsd2ss_xxo (p_x1 : Reg) (p_x2 : Reg) (p_op : Operand) : E unit :=
  opAVX_X_X_XM p_x1 (OReg p_x2) p_op (((((T_N8 ||| T_F2) ||| T_0F) ||| T_EW1) ||| T_EVEX) ||| T_ER_X) 0x5A NONE.
(* xbyak_mnemonic.h:1224 *)
Definition i_vcvtsi2sd_xxo (p_x1 : Reg) (p_x2 : Reg) (p_op : Operand) : E unit :=
  opCvt3 p_x1 p_x2 p_op ((T_0F ||| T_F2) ||| T_EVEX) (((T_W1 ||| T_EW1) ||| T_ER_X) ||| T_N8) ((T_W0 ||| T_EW0) ||| T_N4) 0x2A.
(* xbyak_mnemonic.h:1225 *)
Definition i_vcvtsi2ss_xxo (p_x1 : Reg) (p_x2 : Reg) (p_op : Operand) : E unit :=
  opCvt3 p_x1 p_x2 p_op (((T_0F ||| T_F3) ||| T_EVEX) ||| T_ER_X) ((T_W1 ||| T_EW1) ||| T_N8) ((T_W0 ||| T_EW0) ||| T_N4) 0x2A.
(* xbyak_mnemonic.h:1226 *)
Definition i_vcvtss2sd_xxo (p_x1 : Reg) (p_x2 : Reg) (p_op : Operand) : E unit :=
  opAVX_X_X_XM p_x1 (OReg p_x2) p_op (((((T_N4 ||| T_F3) ||| T_0F) ||| T_EW0) ||| T_EVEX) ||| T_SAE_X) 0x5A NONE.
(* xbyak_mnemonic.h:1227 *)
Definition i_vcvtss2si_do (p_r : Reg) (p_op : Operand) : E unit :=
  opAVX_X_X_XM (Xmm (getIdx p_r)) (OReg (Xmm 0)) p_op ((((((T_0F ||| T_F3) ||| T_W0) ||| T_EVEX) ||| T_EW0) ||| T_ER_X) ||| T_N8) 0x2D NONE.
(* xbyak_mnemonic.h:1228 *)
Definition i_vcvttpd2dq (p_x : Reg) (p_op : Operand) : E unit :=
  opCvt2 p_x p_op ((((((T_66 ||| T_0F) ||| T_YMM) ||| T_EVEX) ||| T_EW1) ||| T_B64) ||| T_SAE_Z) 0xE6.
(* xbyak_mnemonic.h:1229 *)
Definition i_vcvttps2dq (p_xm : Reg) (p_op : Operand) : E unit :=
  opAVX_X_XM_IMM p_xm p_op ((((((T_F3 ||| T_0F) ||| T_EW0) ||| T_YMM) ||| T_EVEX) ||| T_SAE_Z) ||| T_B32) 0x5B NONE.
(* xbyak_mnemonic.h:1230 *)
Definition i_vcvttsd2si_do (p_r : Reg) (p_op : Operand) : E unit :=
  opAVX_X_X_XM (Xmm (getIdx p_r)) (OReg (Xmm 0)) p_op ((((((T_0F ||| T_F2) ||| T_W0) ||| T_EVEX) ||| T_EW0) ||| T_N4) ||| T_SAE_X) 0x2C NONE.
(* xbyak_mnemonic.h:1231 *)
Definition i_vcvttss2si_do (p_r : Reg) (p_op : Operand) : E unit :=
  opAVX_X_X_XM (Xmm (getIdx p_r)) (OReg (Xmm 0)) p_op ((((((T_0F ||| T_F3) ||| T_W0) ||| T_EVEX) ||| T_EW0) ||| T_SAE_X) ||| T_N8) 0x2C NONE.
(* xbyak_mnemonic.h:1232 *)
Definition i_vdivpd (p_xmm : Reg) (p_op1 : Operand) (p_op2 : Operand) : E unit :=
  opAVX_X_X_XM p_xmm p_op1 p_op2 ((((((T_0F ||| T_66) ||| T_EW1) ||| T_YMM) ||| T_EVEX) ||| T_ER_Z) ||| T_B64) 0x5E NONE.
(* xbyak_mnemonic.h:1233 *)
Definition i_vdivps (p_xmm : Reg) (p_op1 : Operand) (p_op2 : Operand) : E unit :=
  opAVX_X_X_XM p_xmm p_op1 p_op2 (((((T_0F ||| T_EW0) ||| T_YMM) ||| T_EVEX) ||| T_ER_Z) ||| T_B32) 0x5E NONE.
(* xbyak_mnemonic.h:1234 *)
Definition i_vdivsd (p_xmm : Reg) (p_op1 : Operand) (p_op2 : Operand) : E unit :=
  opAVX_X_X_XM p_xmm p_op1 p_op2 (((((T_0F ||| T_F2) ||| T_EW1) ||| T_EVEX) ||| T_ER_X) ||| T_N8) 0x5E NONE.
(* xbyak_mnemonic.h:1235 *)
Definition i_vdivss (p_xmm : Reg) (p_op1 : Operand) (p_op2 : Operand) : E unit :=
  opAVX_X_X_XM p_xmm p_op1 p_op2 (((((T_0F ||| T_F3) ||| T_EW0) ||| T_EVEX) ||| T_ER_X) ||| T_N4) 0x5E NONE.
(* xbyak_mnemonic.h:1236 *)
Definition i_vdppd_xxoi (p_x1 : Reg) (p_x2 : Reg) (p_op : Operand) (p_imm : Z) : E unit :=
  let p_imm := w8 p_imm in opAVX_X_X_XM p_x1 (OReg p_x2) p_op ((T_66 ||| T_0F3A) ||| T_W0) 0x41 p_imm.
(* xbyak_mnemonic.h:1237 *)
Definition i_vdpps_xxoi (p_x1 : Reg) (p_x2 : Reg) (p_op : Operand) (p_imm : Z) : E unit :=
  let p_imm := w8 p_imm in opAVX_X_X_XM p_x1 (OReg p_x2) p_op (((T_66 ||| T_0F3A) ||| T_W0) ||| T_YMM) 0x40 p_imm.
(* xbyak_mnemonic.h:1238 *)
Definition i_vextractf128 (p_op : Operand) (p_y : Reg) (p_imm : Z) : E unit :=
  fn tt (let p_imm := w8 p_imm in if (negb ((isXMEM (ob p_op)) && (isYMM p_y))) then throw ERR_BAD_COMBINATION else opVex p_y None p_op (((T_0F3A ||| T_66) ||| T_W0) ||| T_YMM) 0x19 p_imm).
(* xbyak_mnemonic.h:1239 *)
Definition i_vextracti128 (p_op : Operand) (p_y : Reg) (p_imm : Z) : E unit :=
  fn tt (let p_imm := w8 p_imm in if (negb ((isXMEM (ob p_op)) && (isYMM p_y))) then throw ERR_BAD_COMBINATION else opVex p_y None p_op (((T_0F3A ||| T_66) ||| T_W0) ||| T_YMM) 0x39 p_imm).
(* xbyak_mnemonic.h:1240 *)
Definition i_vextractps (p_op : Operand) (p_x : Reg) (p_imm : Z) : E unit :=
  fn tt (let p_imm := w8 p_imm in if (negb (((isREGb (ob p_op) 32) || (isMEM p_op)) && (isXMM p_x))) then throw ERR_BAD_COMBINATION else opVex p_x None p_op ((((T_0F3A ||| T_66) ||| T_W0) ||| T_EVEX) ||| T_N4) 0x17 p_imm).
(* xbyak_mnemonic.h:1241 *)
Definition i_vfmadd132pd (p_x1 : Reg) (p_x2 : Reg) (p_op : Operand) : E unit :=
  opAVX_X_X_XM p_x1 (OReg p_x2) p_op (((((((T_66 ||| T_0F38) ||| T_W1) ||| T_EW1) ||| T_YMM) ||| T_EVEX) ||| T_ER_Z) ||| T_B64) 0x98 NONE.
(* xbyak_mnemonic.h:1242 *)
Definition i_vfmadd132ps (p_x1 : Reg) (p_x2 : Reg) (p_op : Operand) : E unit :=
  opAVX_X_X_XM p_x1 (OReg p_x2) p_op (((((((T_66 ||| T_0F38) ||| T_W0) ||| T_EW0) ||| T_YMM) ||| T_EVEX) ||| T_ER_Z) ||| T_B32) 0x98 NONE.
(* xbyak_mnemonic.h:1243 *)
Definition i_vfmadd132sd (p_x1 : Reg) (p_x2 : Reg) (p_op : Operand) : E unit :=
  opAVX_X_X_XM p_x1 (OReg p_x2) p_op ((((((T_N8 ||| T_66) ||| T_0F38) ||| T_W1) ||| T_EW1) ||| T_EVEX) ||| T_ER_X) 0x99 NONE.
(* xbyak_mnemonic.h:1244 *)
Definition i_vfmadd132ss (p_x1 : Reg) (p_x2 : Reg) (p_op : Operand) : E unit :=
  opAVX_X_X_XM p_x1 (OReg p_x2) p_op ((((((T_N4 ||| T_66) ||| T_0F38) ||| T_W0) ||| T_EW0) ||| T_EVEX) ||| T_ER_X) 0x99 NONE.
(* xbyak_mnemonic.h:1245 *)
Definition i_vfmadd213pd (p_x1 : Reg) (p_x2 : Reg) (p_op : Operand) : E unit :=
  opAVX_X_X_XM p_x1 (OReg p_x2) p_op (((((((T_66 ||| T_0F38) ||| T_W1) ||| T_EW1) ||| T_YMM) ||| T_EVEX) ||| T_ER_Z) ||| T_B64) 0xA8 NONE.
(* xbyak_mnemonic.h:1246 *)
Definition i_vfmadd213ps (p_x1 : Reg) (p_x2 : Reg) (p_op : Operand) : E unit :=
  opAVX_X_X_XM p_x1 (OReg p_x2) p_op (((((((T_66 ||| T_0F38) ||| T_W0) ||| T_EW0) ||| T_YMM) ||| T_EVEX) ||| T_ER_Z) ||| T_B32) 0xA8 NONE.
(* xbyak_mnemonic.h:1247 *)
Definition i_vfmadd213sd (p_x1 : Reg) (p_x2 : Reg) (p_op : Operand) : E unit :=
  opAVX_X_X_XM p_x1 (OReg p_x2) p_op ((((((T_N8 ||| T_66) ||| T_0F38) ||| T_W1) ||| T_EW1) ||| T_EVEX) ||| T_ER_X) 0xA9 NONE.
(* xbyak_mnemonic.h:1248 *)
Definition i_vfmadd213ss (p_x1 : Reg) (p_x2 : Reg) (p_op : Operand) : E unit :=
  opAVX_X_X_XM p_x1 (OReg p_x2) p_op ((((((T_N4 ||| T_66) ||| T_0F38) ||| T_W0) ||| T_EW0) ||| T_EVEX) ||| T_ER_X) 0xA9 NONE.
(* xbyak_mnemonic.h:1249 *)
Definition i_vfmadd231pd (p_x1 : Reg) (p_x2 : Reg) (p_op : Operand) : E unit :=
  opAVX_X_X_XM p_x1 (OReg p_x2) p_op (((((((T_66 ||| T_0F38) ||| T_W1) ||| T_EW1) ||| T_YMM) ||| T_EVEX) ||| T_ER_Z) ||| T_B64) 0xB8 NONE.
(* xbyak_mnemonic.h:1250 *)
Definition i_vfmadd231ps (p_x1 : Reg) (p_x2 : Reg) (p_op : Operand) : E unit :=
  opAVX_X_X_XM p_x1 (OReg p_x2) p_op (((((((T_66 ||| T_0F38) ||| T_W0) ||| T_EW0) ||| T_YMM) ||| T_EVEX) ||| T_ER_Z) ||| T_B32) 0xB8 NONE.
(* xbyak_mnemonic.h:1251 *)
Definition i_vfmadd231sd (p_x1 : Reg) (p_x2 : Reg) (p_op : Operand) : E unit :=
  opAVX_X_X_XM p_x1 (OReg p_x2) p_op ((((((T_N8 ||| T_66) ||| T_0F38) ||| T_W1) ||| T_EW1) ||| T_EVEX) ||| T_ER_X) 0xB9 NONE.
(* xbyak_mnemonic.h:1252 *)
Definition i_vfmadd231ss (p_x1 : Reg) (p_x2 : Reg) (p_op : Operand) : E unit :=
  opAVX_X_X_XM p_x1 (OReg p_x2) p_op ((((((T_N4 ||| T_66) ||| T_0F38) ||| T_W0) ||| T_EW0) ||| T_EVEX) ||| T_ER_X) 0xB9 NONE.
(* xbyak_mnemonic.h:1253 *)
Definition i_vfmaddsub132pd (p_x1 : Reg) (p_x2 : Reg) (p_op : Operand) : E unit :=
  opAVX_X_X_XM p_x1 (OReg p_x2) p_op (((((((T_66 ||| T_0F38) ||| T_W1) ||| T_EW1) ||| T_YMM) ||| T_EVEX) ||| T_ER_Z) ||| T_B64) 0x96 NONE.
(* xbyak_mnemonic.h:1254 *)
Definition i_vfmaddsub132ps (p_x1 : Reg) (p_x2 : Reg) (p_op : Operand) : E unit :=
  opAVX_X_X_XM p_x1 (OReg p_x2) p_op (((((((T_66 ||| T_0F38) ||| T_W0) ||| T_EW0) ||| T_YMM) ||| T_EVEX) ||| T_ER_Z) ||| T_B32) 0x96 NONE.
(* xbyak_mnemonic.h:1255 *)
Definition i_vfmaddsub213pd (p_x1 : Reg) (p_x2 : Reg) (p_op : Operand) : E unit :=
  opAVX_X_X_XM p_x1 (OReg p_x2) p_op (((((((T_66 ||| T_0F38) ||| T_W1) ||| T_EW1) ||| T_YMM) ||| T_EVEX) ||| T_ER_Z) ||| T_B64) 0xA6 NONE.
(* xbyak_mnemonic.h:1256 *)
Definition i_vfmaddsub213ps (p_x1 : Reg) (p_x2 : Reg) (p_op : Operand) : E unit :=
  opAVX_X_X_XM p_x1 (OReg p_x2) p_op (((((((T_66 ||| T_0F38) ||| T_W0) ||| T_EW0) ||| T_YMM) ||| T_EVEX) ||| T_ER_Z) ||| T_B32) 0xA6 NONE.
(* xbyak_mnemonic.h:1257 *)
Definition i_vfmaddsub231pd (p_x1 : Reg) (p_x2 : Reg) (p_op : Operand) : E unit :=
  opAVX_X_X_XM p_x1 (OReg p_x2) p_op (((((((T_66 ||| T_0F38) ||| T_W1) ||| T_EW1) ||| T_YMM) ||| T_EVEX) ||| T_ER_Z) ||| T_B64) 0xB6 NONE.
(* xbyak_mnemonic.h:1258 *)
Definition i_vfmaddsub231ps (p_x1 : Reg) (p_x2 : Reg) (p_op : Operand) : E unit :=
  opAVX_X_X_XM p_x1 (OReg p_x2) p_op (((((((T_66 ||| T_0F38) ||| T_W0) ||| T_EW0) ||| T_YMM) ||| T_EVEX) ||| T_ER_Z) ||| T_B32) 0xB6 NONE.
(* xbyak_mnemonic.h:1259 *)
Definition i_vfmsub132pd (p_x1 : Reg) (p_x2 : Reg) (p_op : Operand) : E unit :=
  opAVX_X_X_XM p_x1 (OReg p_x2) p_op (((((((T_66 ||| T_0F38) ||| T_W1) ||| T_EW1) ||| T_YMM) ||| T_EVEX) ||| T_ER_Z) ||| T_B64) 0x9A NONE.
(* xbyak_mnemonic.h:1260 *)
Definition i_vfmsub132ps (p_x1 : Reg) (p_x2 : Reg) (p_op : Operand) : E unit :=
  opAVX_X_X_XM p_x1 (OReg p_x2) p_op (((((((T_66 ||| T_0F38) ||| T_W0) ||| T_EW0) ||| T_YMM) ||| T_EVEX) ||| T_ER_Z) ||| T_B32) 0x9A NONE.
(* xbyak_mnemonic.h:1261 *)
Definition i_vfmsub132sd (p_x1 : Reg) (p_x2 : Reg) (p_op : Operand) : E unit :=
  opAVX_X_X_XM p_x1 (OReg p_x2) p_op ((((((T_N8 ||| T_66) ||| T_0F38) ||| T_W1) ||| T_EW1) ||| T_EVEX) ||| T_ER_X) 0x9B NONE.
(* xbyak_mnemonic.h:1262 *)
Definition i_vfmsub132ss (p_x1 : Reg) (p_x2 : Reg) (p_op : Operand) : E unit :=
  opAVX_X_X_XM p_x1 (OReg p_x2) p_op ((((((T_N4 ||| T_66) ||| T_0F38) ||| T_W0) ||| T_EW0) ||| T_EVEX) ||| T_ER_X) 0x9B NONE.
(* xbyak_mnemonic.h:1263 *)
Definition i_vfmsub213pd (p_x1 : Reg) (p_x2 : Reg) (p_op : Operand) : E unit :=
  opAVX_X_X_XM p_x1 (OReg p_x2) p_op (((((((T_66 ||| T_0F38) ||| T_W1) ||| T_EW1) ||| T_YMM) ||| T_EVEX) ||| T_ER_Z) ||| T_B64) 0xAA NONE.
(* xbyak_mnemonic.h:1264 *)
Definition i_vfmsub213ps (p_x1 : Reg) (p_x2 : Reg) (p_op : Operand) : E unit :=
  opAVX_X_X_XM p_x1 (OReg p_x2) p_op (((((((T_66 ||| T_0F38) ||| T_W0) ||| T_EW0) ||| T_YMM) ||| T_EVEX) ||| T_ER_Z) ||| T_B32) 0xAA NONE.
(* xbyak_mnemonic.h:1265 *)
Definition i_vfmsub213sd (p_x1 : Reg) (p_x2 : Reg) (p_op : Operand) : E unit :=
  opAVX_X_X_XM p_x1 (OReg p_x2) p_op ((((((T_N8 ||| T_66) ||| T_0F38) ||| T_W1) ||| T_EW1) ||| T_EVEX) ||| T_ER_X) 0xAB NONE.
(* xbyak_mnemonic.h:1266 *)
Definition i_vfmsub213ss (p_x1 : Reg) (p_x2 : Reg) (p_op : Operand) : E unit :=
  opAVX_X_X_XM p_x1 (OReg p_x2) p_op ((((((T_N4 ||| T_66) ||| T_0F38) ||| T_W0) ||| T_EW0) ||| T_EVEX) ||| T_ER_X) 0xAB NONE.
(* xbyak_mnemonic.h:1267 *)
Definition i_vfmsub231pd (p_x1 : Reg) (p_x2 : Reg) (p_op : Operand) : E unit :=
  opAVX_X_X_XM p_x1 (OReg p_x2) p_op (((((((T_66 ||| T_0F38) ||| T_W1) ||| T_EW1) ||| T_YMM) ||| T_EVEX) ||| T_ER_Z) ||| T_B64) 0xBA NONE.
(* xbyak_mnemonic.h:1268 *)
Definition i_vfmsub231ps (p_x1 : Reg) (p_x2 : Reg) (p_op : Operand) : E unit :=
  opAVX_X_X_XM p_x1 (OReg p_x2) p_op (((((((T_66 ||| T_0F38) ||| T_W0) ||| T_EW0) ||| T_YMM) ||| T_EVEX) ||| T_ER_Z) ||| T_B32) 0xBA NONE.
(* xbyak_mnemonic.h:1269 *)
Definition i_vfmsub231sd (p_x1 : Reg) (p_x2 : Reg) (p_op : Operand) : E unit :=
  opAVX_X_X_XM p_x1 (OReg p_x2) p_op ((((((T_N8 ||| T_66) ||| T_0F38) ||| T_W1) ||| T_EW1) ||| T_EVEX) ||| T_ER_X) 0xBB NONE.
(* xbyak_mnemonic.h:1270 *)
Definition i_vfmsub231ss (p_x1 : Reg) (p_x2 : Reg) (p_op : Operand) : E unit :=
  opAVX_X_X_XM p_x1 (OReg p_x2) p_op ((((((T_N4 ||| T_66) ||| T_0F38) ||| T_W0) ||| T_EW0) ||| T_EVEX) ||| T_ER_X) 0xBB NONE.
(* xbyak_mnemonic.h:1271 *)
Definition i_vfmsubadd132pd (p_x1 : Reg) (p_x2 : Reg) (p_op : Operand) : E unit :=
  opAVX_X_X_XM p_x1 (OReg p_x2) p_op (((((((T_66 ||| T_0F38) ||| T_W1) ||| T_EW1) ||| T_YMM) ||| T_EVEX) ||| T_ER_Z) ||| T_B64) 0x97 NONE.
(* xbyak_mnemonic.h:1272 *)
Definition i_vfmsubadd132ps (p_x1 : Reg) (p_x2 : Reg) (p_op : Operand) : E unit :=
  opAVX_X_X_XM p_x1 (OReg p_x2) p_op (((((((T_66 ||| T_0F38) ||| T_W0) ||| T_EW0) ||| T_YMM) ||| T_EVEX) ||| T_ER_Z) ||| T_B32) 0x97 NONE.
(* xbyak_mnemonic.h:1273 *)
Definition i_vfmsubadd213pd (p_x1 : Reg) (p_x2 : Reg) (p_op : Operand) : E unit :=
  opAVX_X_X_XM p_x1 (OReg p_x2) p_op (((((((T_66 ||| T_0F38) ||| T_W1) ||| T_EW1) ||| T_YMM) ||| T_EVEX) ||| T_ER_Z) ||| T_B64) 0xA7 NONE.
(* xbyak_mnemonic.h:1274 *)
Definition i_vfmsubadd213ps (p_x1 : Reg) (p_x2 : Reg) (p_op : Operand) : E unit :=
  opAVX_X_X_XM p_x1 (OReg p_x2) p_op (((((((T_66 ||| T_0F38) ||| T_W0) ||| T_EW0) ||| T_YMM) ||| T_EVEX) ||| T_ER_Z) ||| T_B32) 0xA7 NONE.
(* xbyak_mnemonic.h:1275 *)
Definition i_vfmsubadd231pd (p_x1 : Reg) (p_x2 : Reg) (p_op : Operand) : E unit :=
  opAVX_X_X_XM p_x1 (OReg p_x2) p_op (((((((T_66 ||| T_0F38) ||| T_W1) ||| T_EW1) ||| T_YMM) ||| T_EVEX) ||| T_ER_Z) ||| T_B64) 0xB7 NONE.
(* xbyak_mnemonic.h:1276 *)
Definition i_vfmsubadd231ps (p_x1 : Reg) (p_x2 : Reg) (p_op : Operand) : E unit :=
  opAVX_X_X_XM p_x1 (OReg p_x2) p_op (((((((T_66 ||| T_0F38) ||| T_W0) ||| T_EW0) ||| T_YMM) ||| T_EVEX) ||| T_ER_Z) ||| T_B32) 0xB7 NONE.
(* xbyak_mnemonic.h:1277 *)
Definition i_vfnmadd132pd (p_x1 : Reg) (p_x2 : Reg) (p_op : Operand) : E unit :=
  opAVX_X_X_XM p_x1 (OReg p_x2) p_op (((((((T_66 ||| T_0F38) ||| T_W1) ||| T_EW1) ||| T_YMM) ||| T_EVEX) ||| T_ER_Z) ||| T_B64) 0x9C NONE.
(* xbyak_mnemonic.h:1278 *)
Definition i_vfnmadd132ps (p_x1 : Reg) (p_x2 : Reg) (p_op : Operand) : E unit :=
  opAVX_X_X_XM p_x1 (OReg p_x2) p_op (((((((T_66 ||| T_0F38) ||| T_W0) ||| T_EW0) ||| T_YMM) ||| T_EVEX) ||| T_ER_Z) ||| T_B32) 0x9C NONE.
(* xbyak_mnemonic.h:1279 *)
Definition i_vfnmadd132sd (p_x1 : Reg) (p_x2 : Reg) (p_op : Operand) : E unit :=
  opAVX_X_X_XM p_x1 (OReg p_x2) p_op ((((((T_N8 ||| T_66) ||| T_0F38) ||| T_W1) ||| T_EW1) ||| T_EVEX) ||| T_ER_X) 0x9D NONE.
(* xbyak_mnemonic.h:1280 *)
Definition i_vfnmadd132ss (p_x1 : Reg) (p_x2 : Reg) (p_op : Operand) : E unit :=
  opAVX_X_X_XM p_x1 (OReg p_x2) p_op ((((((T_N4 ||| T_66) ||| T_0F38) ||| T_W0) ||| T_EW0) ||| T_EVEX) ||| T_ER_X) 0x9D NONE.
(* xbyak_mnemonic.h:1281 *)
Definition i_vfnmadd213pd (p_x1 : Reg) (p_x2 : Reg) (p_op : Operand) : E unit :=
  opAVX_X_X_XM p_x1 (OReg p_x2) p_op (((((((T_66 ||| T_0F38) ||| T_W1) ||| T_EW1) ||| T_YMM) ||| T_EVEX) ||| T_ER_Z) ||| T_B64) 0xAC NONE.
(* xbyak_mnemonic.h:1282 *)
Definition i_vfnmadd213ps (p_x1 : Reg) (p_x2 : Reg) (p_op : Operand) : E unit :=
  opAVX_X_X_XM p_x1 (OReg p_x2) p_op (((((((T_66 ||| T_0F38) ||| T_W0) ||| T_EW0) ||| T_YMM) ||| T_EVEX) ||| T_ER_Z) ||| T_B32) 0xAC NONE.
(* xbyak_mnemonic.h:1283 *)
Definition i_vfnmadd213sd (p_x1 : Reg) (p_x2 : Reg) (p_op : Operand) : E unit :=
  opAVX_X_X_XM p_x1 (OReg p_x2) p_op ((((((T_N8 ||| T_66) ||| T_0F38) ||| T_W1) ||| T_EW1) ||| T_EVEX) ||| T_ER_X) 0xAD NONE.
(* xbyak_mnemonic.h:1284 *)
Definition i_vfnmadd213ss (p_x1 : Reg) (p_x2 : Reg) (p_op : Operand) : E unit :=
  opAVX_X_X_XM p_x1 (OReg p_x2) p_op ((((((T_N4 ||| T_66) ||| T_0F38) ||| T_W0) ||| T_EW0) ||| T_EVEX) ||| T_ER_X) 0xAD NONE.
(* xbyak_mnemonic.h:1285 *)
Definition i_vfnmadd231pd (p_x1 : Reg) (p_x2 : Reg) (p_op : Operand) : E unit :=
  opAVX_X_X_XM p_x1 (OReg p_x2) p_op (((((((T_66 ||| T_0F38) ||| T_W1) ||| T_EW1) ||| T_YMM) ||| T_EVEX) ||| T_ER_Z) ||| T_B64) 0xBC NONE.
(* xbyak_mnemonic.h:1286 *)
Definition i_vfnmadd231ps (p_x1 : Reg) (p_x2 : Reg) (p_op : Operand) : E unit :=
  opAVX_X_X_XM p_x1 (OReg p_x2) p_op (((((((T_66 ||| T_0F38) ||| T_W0) ||| T_EW0) ||| T_YMM) ||| T_EVEX) ||| T_ER_Z) ||| T_B32) 0xBC NONE.
(* xbyak_mnemonic.h:1287 *)
Definition i_vfnmadd231sd (p_x1 : Reg) (p_x2 : Reg) (p_op : Operand) : E unit :=
  opAVX_X_X_XM p_x1 (OReg p_x2) p_op ((((((T_N8 ||| T_66) ||| T_0F38) ||| T_W1) ||| T_EW1) ||| T_EVEX) ||| T_ER_X) 0xBD NONE.
(* xbyak_mnemonic.h:1288 *)
Definition i_vfnmadd231ss (p_x1 : Reg) (p_x2 : Reg) (p_op : Operand) : E unit :=
  opAVX_X_X_XM p_x1 (OReg p_x2) p_op ((((((T_N4 ||| T_66) ||| T_0F38) ||| T_W0) ||| T_EW0) ||| T_EVEX) ||| T_ER_X) 0xBD NONE.
(* xbyak_mnemonic.h:1289 *)
Definition i_vfnmsub132pd (p_x1 : Reg) (p_x2 : Reg) (p_op : Operand) : E unit :=
  opAVX_X_X_XM p_x1 (OReg p_x2) p_op (((((((T_66 ||| T_0F38) ||| T_W1) ||| T_EW1) ||| T_YMM) ||| T_EVEX) ||| T_ER_Z) ||| T_B64) 0x9E NONE.
(* xbyak_mnemonic.h:1290 *)
Definition i_vfnmsub132ps (p_x1 : Reg) (p_x2 : Reg) (p_op : Operand) : E unit :=
  opAVX_X_X_XM p_x1 (OReg p_x2) p_op (((((((T_66 ||| T_0F38) ||| T_W0) ||| T_EW0) ||| T_YMM) ||| T_EVEX) ||| T_ER_Z) ||| T_B32) 0x9E NONE.
(* xbyak_mnemonic.h:1291 *)
Definition i_vfnmsub132sd (p_x1 : Reg) (p_x2 : Reg) (p_op : Operand) : E unit :=
  opAVX_X_X_XM p_x1 (OReg p_x2) p_op ((((((T_N8 ||| T_66) ||| T_0F38) ||| T_W1) ||| T_EW1) ||| T_EVEX) ||| T_ER_X) 0x9F NONE.
(* xbyak_mnemonic.h:1292 *)
Definition i_vfnmsub132ss (p_x1 : Reg) (p_x2 : Reg) (p_op : Operand) : E unit :=
  opAVX_X_X_XM p_x1 (OReg p_x2) p_op ((((((T_N4 ||| T_66) ||| T_0F38) ||| T_W0) ||| T_EW0) ||| T_EVEX) ||| T_ER_X) 0x9F NONE.
(* xbyak_mnemonic.h:1293 *)
Definition i_vfnmsub213pd (p_x1 : Reg) (p_x2 : Reg) (p_op : Operand) : E unit :=
  opAVX_X_X_XM p_x1 (OReg p_x2) p_op (((((((T_66 ||| T_0F38) ||| T_W1) ||| T_EW1) ||| T_YMM) ||| T_EVEX) ||| T_ER_Z) ||| T_B64) 0xAE NONE.
(* xbyak_mnemonic.h:1294 *)
Definition i_vfnmsub213ps (p_x1 : Reg) (p_x2 : Reg) (p_op : Operand) : E unit :=
  opAVX_X_X_XM p_x1 (OReg p_x2) p_op (((((((T_66 ||| T_0F38) ||| T_W0) ||| T_EW0) ||| T_YMM) ||| T_EVEX) ||| T_ER_Z) ||| T_B32) 0xAE NONE.
(* xbyak_mnemonic.h:1295 *)
Definition i_vfnmsub213sd (p_x1 : Reg) (p_x2 : Reg) (p_op : Operand) : E unit :=
  opAVX_X_X_XM p_x1 (OReg p_x2) p_op ((((((T_N8 ||| T_66) ||| T_0F38) ||| T_W1) ||| T_EW1) ||| T_EVEX) ||| T_ER_X) 0xAF NONE.
(* xbyak_mnemonic.h:1296 *)
Definition i_vfnmsub213ss (p_x1 : Reg) (p_x2 : Reg) (p_op : Operand) : E unit :=
  opAVX_X_X_XM p_x1 (OReg p_x2) p_op ((((((T_N4 ||| T_66) ||| T_0F38) ||| T_W0) ||| T_EW0) ||| T_EVEX) ||| T_ER_X) 0xAF NONE.
(* xbyak_mnemonic.h:1297 *)
Definition i_vfnmsub231pd (p_x1 : Reg) (p_x2 : Reg) (p_op : Operand) : E unit :=
  opAVX_X_X_XM p_x1 (OReg p_x2) p_op (((((((T_66 ||| T_0F38) ||| T_W1) ||| T_EW1) ||| T_YMM) ||| T_EVEX) ||| T_ER_Z) ||| T_B64) 0xBE NONE.
(* xbyak_mnemonic.h:1298 *)
Definition i_vfnmsub231ps (p_x1 : Reg) (p_x2 : Reg) (p_op : Operand) : E unit :=
  opAVX_X_X_XM p_x1 (OReg p_x2) p_op (((((((T_66 ||| T_0F38) ||| T_W0) ||| T_EW0) ||| T_YMM) ||| T_EVEX) ||| T_ER_Z) ||| T_B32) 0xBE NONE.
(* xbyak_mnemonic.h:1299 *)
Definition i_vfnmsub231sd (p_x1 : Reg) (p_x2 : Reg) (p_op : Operand) : E unit :=
  opAVX_X_X_XM p_x1 (OReg p_x2) p_op ((((((T_N8 ||| T_66) ||| T_0F38) ||| T_W1) ||| T_EW1) ||| T_EVEX) ||| T_ER_X) 0xBF NONE.
(* xbyak_mnemonic.h:1300 *)
Definition i_vfnmsub231ss (p_x1 : Reg) (p_x2 : Reg) (p_op : Operand) : E unit :=
  opAVX_X_X_XM p_x1 (OReg p_x2) p_op ((((((T_N4 ||| T_66) ||| T_0F38) ||| T_W0) ||| T_EW0) ||| T_EVEX) ||| T_ER_X) 0xBF NONE.
(* xbyak_mnemonic.h:1301 *)
Definition i_vgatherdpd_xax (p_x1 : Reg) (p_addr : Address) (p_x2 : Reg) : E unit :=
  opGather p_x1 p_addr p_x2 ((((T_0F38 ||| T_66) ||| T_YMM) ||| T_VSIB) ||| T_W1) 0x92 0.
(* xbyak_mnemonic.h:1302 *)
Definition i_vgatherdps_xax (p_x1 : Reg) (p_addr : Address) (p_x2 : Reg) : E unit :=
  opGather p_x1 p_addr p_x2 ((((T_0F38 ||| T_66) ||| T_YMM) ||| T_VSIB) ||| T_W0) 0x92 1.
(* xbyak_mnemonic.h:1303 *)
Definition i_vgatherqpd_xax (p_x1 : Reg) (p_addr : Address) (p_x2 : Reg) : E unit :=
  opGather p_x1 p_addr p_x2 ((((T_0F38 ||| T_66) ||| T_YMM) ||| T_VSIB) ||| T_W1) 0x93 1.
(* xbyak_mnemonic.h:1304 *)
Definition i_vgatherqps_xax (p_x1 : Reg) (p_addr : Address) (p_x2 : Reg) : E unit :=
  opGather p_x1 p_addr p_x2 ((((T_0F38 ||| T_66) ||| T_YMM) ||| T_VSIB) ||| T_W0) 0x93 2.
(* xbyak_mnemonic.h:1305 *)
Definition i_vgf2p8affineinvqb (p_x1 : Reg) (p_x2 : Reg) (p_op : Operand) (p_imm : Z) : E unit :=
  let p_imm := w8 p_imm in opAVX_X_X_XM p_x1 (OReg p_x2) p_op (((((((T_66 ||| T_0F3A) ||| T_W1) ||| T_EW1) ||| T_YMM) ||| T_EVEX) ||| T_SAE_Z) ||| T_B64) 0xCF p_imm.
(* xbyak_mnemonic.h:1306 *)
Definition i_vgf2p8affineqb (p_x1 : Reg) (p_x2 : Reg) (p_op : Operand) (p_imm : Z) : E unit :=
  let p_imm := w8 p_imm in opAVX_X_X_XM p_x1 (OReg p_x2) p_op (((((((T_66 ||| T_0F3A) ||| T_W1) ||| T_EW1) ||| T_YMM) ||| T_EVEX) ||| T_SAE_Z) ||| T_B64) 0xCE p_imm.
(* xbyak_mnemonic.h:1307 *)
Definition i_vgf2p8mulb (p_x1 : Reg) (p_x2 : Reg) (p_op : Operand) : E unit :=
  opAVX_X_X_XM p_x1 (OReg p_x2) p_op ((((((T_66 ||| T_0F38) ||| T_W0) ||| T_EW0) ||| T_YMM) ||| T_EVEX) ||| T_SAE_Z) 0xCF NONE.
(* xbyak_mnemonic.h:1308 *)
Definition i_vhaddpd (p_xmm : Reg) (p_op1 : Operand) (p_op2 : Operand) : E unit :=
  opAVX_X_X_XM p_xmm p_op1 p_op2 ((T_66 ||| T_0F) ||| T_YMM) 0x7C NONE.
(* xbyak_mnemonic.h:1309 *)
Definition i_vhaddps (p_xmm : Reg) (p_op1 : Operand) (p_op2 : Operand) : E unit :=
  opAVX_X_X_XM p_xmm p_op1 p_op2 ((T_F2 ||| T_0F) ||| T_YMM) 0x7C NONE.
(* xbyak_mnemonic.h:1310 *)
Definition i_vhsubpd (p_xmm : Reg) (p_op1 : Operand) (p_op2 : Operand) : E unit :=
  opAVX_X_X_XM p_xmm p_op1 p_op2 ((T_66 ||| T_0F) ||| T_YMM) 0x7D NONE.
(* xbyak_mnemonic.h:1311 *)
Definition i_vhsubps (p_xmm : Reg) (p_op1 : Operand) (p_op2 : Operand) : E unit :=
  opAVX_X_X_XM p_xmm p_op1 p_op2 ((T_F2 ||| T_0F) ||| T_YMM) 0x7D NONE.
(* xbyak_mnemonic.h:1312 *)
Definition i_vinsertf128 (p_y1 : Reg) (p_y2 : Reg) (p_op : Operand) (p_imm : Z) : E unit :=
  fn tt (let p_imm := w8 p_imm in if (negb (((isYMM p_y1) && (isYMM p_y2)) && (isXMEM (ob p_op)))) then throw ERR_BAD_COMBINATION else opVex p_y1 (Some p_y2) p_op (((T_0F3A ||| T_66) ||| T_W0) ||| T_YMM) 0x18 p_imm).
(* xbyak_mnemonic.h:1313 *)
Definition i_vinserti128 (p_y1 : Reg) (p_y2 : Reg) (p_op : Operand) (p_imm : Z) : E unit :=
  fn tt (let p_imm := w8 p_imm in if (negb (((isYMM p_y1) && (isYMM p_y2)) && (isXMEM (ob p_op)))) then throw ERR_BAD_COMBINATION else opVex p_y1 (Some p_y2) p_op (((T_0F3A ||| T_66) ||| T_W0) ||| T_YMM) 0x38 p_imm).
(* xbyak_mnemonic.h:1314 *)
Definition i_vinsertps_xxoi (p_x1 : Reg) (p_x2 : Reg) (p_op : Operand) (p_imm : Z) : E unit :=
  let p_imm := w8 p_imm in opAVX_X_X_XM p_x1 (OReg p_x2) p_op (((((T_N4 ||| T_66) ||| T_0F3A) ||| T_W0) ||| T_EW0) ||| T_EVEX) 0x21 p_imm.
(* xbyak_mnemonic.h:1315 *)
Definition i_vlddqu (p_x : Reg) (p_addr : Address) : E unit :=
  opAVX_X_X_XM p_x (OReg (cvtIdx0 (OReg p_x))) (OMem p_addr) (((T_0F ||| T_F2) ||| T_W0) ||| T_YMM) 0xF0 NONE.
(* xbyak_mnemonic.h:1316 *)
Definition i_vldmxcsr (p_addr : Address) : E unit :=
  opAVX_X_X_XM (Xmm 2) (OReg (Xmm 0)) (OMem p_addr) T_0F 0xAE NONE.
(* xbyak_mnemonic.h:1317 *)
Definition i_vmaskmovdqu (p_x1 : Reg) (p_x2 : Reg) : E unit :=
  opAVX_X_X_XM p_x1 (OReg (Xmm 0)) (OReg p_x2) (T_0F ||| T_66) 0xF7 NONE.
(* xbyak_mnemonic.h:1318 *)
Definition i_vmaskmovpd_axx (p_addr : Address) (p_x1 : Reg) (p_x2 : Reg) : E unit :=
  opAVX_X_X_XM p_x2 (OReg p_x1) (OMem p_addr) (((T_0F38 ||| T_66) ||| T_W0) ||| T_YMM) 0x2F NONE.
(* xbyak_mnemonic.h:1319 *)
Definition i_vmaskmovpd_xxa (p_x1 : Reg) (p_x2 : Reg) (p_addr : Address) : E unit :=
  opAVX_X_X_XM p_x1 (OReg p_x2) (OMem p_addr) (((T_0F38 ||| T_66) ||| T_W0) ||| T_YMM) 0x2D NONE.
(* xbyak_mnemonic.h:1320 *)
Definition i_vmaskmovps_axx (p_addr : Address) (p_x1 : Reg) (p_x2 : Reg) : E unit :=
  opAVX_X_X_XM p_x2 (OReg p_x1) (OMem p_addr) (((T_0F38 ||| T_66) ||| T_W0) ||| T_YMM) 0x2E NONE.
(* xbyak_mnemonic.h:1321 *)
Definition i_vmaskmovps_xxa (p_x1 : Reg) (p_x2 : Reg) (p_addr : Address) : E unit :=
  opAVX_X_X_XM p_x1 (OReg p_x2) (OMem p_addr) (((T_0F38 ||| T_66) ||| T_W0) ||| T_YMM) 0x2C NONE.
(* xbyak_mnemonic.h:1322 *)
Definition i_vmaxpd (p_xmm : Reg) (p_op1 : Operand) (p_op2 : Operand) : E unit :=
  opAVX_X_X_XM p_xmm p_op1 p_op2 ((((((T_0F ||| T_66) ||| T_EW1) ||| T_YMM) ||| T_EVEX) ||| T_SAE_Z) ||| T_B64) 0x5F NONE.
(* xbyak_mnemonic.h:1323 *)
Definition i_vmaxps (p_xmm : Reg) (p_op1 : Operand) (p_op2 : Operand) : E unit :=
  opAVX_X_X_XM p_xmm p_op1 p_op2 (((((T_0F ||| T_EW0) ||| T_YMM) ||| T_EVEX) ||| T_SAE_Z) ||| T_B32) 0x5F NONE.
(* xbyak_mnemonic.h:1324 *)
Definition i_vmaxsd (p_xmm : Reg) (p_op1 : Operand) (p_op2 : Operand) : E unit :=
  opAVX_X_X_XM p_xmm p_op1 p_op2 (((((T_0F ||| T_F2) ||| T_EW1) ||| T_EVEX) ||| T_SAE_X) ||| T_N8) 0x5F NONE.
(* xbyak_mnemonic.h:1325 *)
Definition i_vmaxss (p_xmm : Reg) (p_op1 : Operand) (p_op2 : Operand) : E unit :=
  opAVX_X_X_XM p_xmm p_op1 p_op2 (((((T_0F ||| T_F3) ||| T_EW0) ||| T_EVEX) ||| T_SAE_X) ||| T_N4) 0x5F NONE.
(* xbyak_mnemonic.h:1326 *)
Definition i_vminpd (p_xmm : Reg) (p_op1 : Operand) (p_op2 : Operand) : E unit :=
  opAVX_X_X_XM p_xmm p_op1 p_op2 ((((((T_0F ||| T_66) ||| T_EW1) ||| T_YMM) ||| T_EVEX) ||| T_SAE_Z) ||| T_B64) 0x5D NONE.
(* xbyak_mnemonic.h:1327 *)
Definition i_vminps (p_xmm : Reg) (p_op1 : Operand) (p_op2 : Operand) : E unit :=
  opAVX_X_X_XM p_xmm p_op1 p_op2 (((((T_0F ||| T_EW0) ||| T_YMM) ||| T_EVEX) ||| T_SAE_Z) ||| T_B32) 0x5D NONE.
(* xbyak_mnemonic.h:1328 *)
Definition i_vminsd (p_xmm : Reg) (p_op1 : Operand) (p_op2 : Operand) : E unit :=
  opAVX_X_X_XM p_xmm p_op1 p_op2 (((((T_0F ||| T_F2) ||| T_EW1) ||| T_EVEX) ||| T_SAE_X) ||| T_N8) 0x5D NONE.
(* xbyak_mnemonic.h:1329 *)
Definition i_vminss (p_xmm : Reg) (p_op1 : Operand) (p_op2 : Operand) : E unit :=
  opAVX_X_X_XM p_xmm p_op1 p_op2 (((((T_0F ||| T_F3) ||| T_EW0) ||| T_EVEX) ||| T_SAE_X) ||| T_N4) 0x5D NONE.
(* xbyak_mnemonic.h:1330 *)
Definition i_vmovapd_ax (p_addr : Address) (p_xmm : Reg) : E unit :=
  opAVX_X_XM_IMM p_xmm (OMem p_addr) (((((T_66 ||| T_0F) ||| T_EW1) ||| T_YMM) ||| T_EVEX) ||| T_M_K) 0x29 NONE.
(* xbyak_mnemonic.h:1331 *)
Definition i_vmovapd_xo (p_xm : Reg) (p_op : Operand) : E unit :=
  opAVX_X_XM_IMM p_xm p_op ((((T_66 ||| T_0F) ||| T_EW1) ||| T_YMM) ||| T_EVEX) 0x28 NONE.
(* xbyak_mnemonic.h:1332 *)
Definition i_vmovaps_ax (p_addr : Address) (p_xmm : Reg) : E unit :=
  opAVX_X_XM_IMM p_xmm (OMem p_addr) ((((T_0F ||| T_EW0) ||| T_YMM) ||| T_EVEX) ||| T_M_K) 0x29 NONE.
(* xbyak_mnemonic.h:1333 *)
Definition i_vmovaps_xo (p_xm : Reg) (p_op : Operand) : E unit :=
  opAVX_X_XM_IMM p_xm p_op (((T_0F ||| T_EW0) ||| T_YMM) ||| T_EVEX) 0x28 NONE.
(* xbyak_mnemonic.h:1334 *)
Definition i_vmovddup (p_xm : Reg) (p_op : Operand) : E unit :=
  opAVX_X_XM_IMM p_xm p_op ((((((((T_DUP ||| T_F2) ||| T_0F) ||| T_EW1) ||| T_YMM) ||| T_EVEX) ||| T_ER_X) ||| T_ER_Y) ||| T_ER_Z) 0x12 NONE.
(* xbyak_mnemonic.h:1335 *)
Definition i_vmovdqa_ax (p_addr : Address) (p_xmm : Reg) : E unit :=
  opAVX_X_XM_IMM p_xmm (OMem p_addr) ((T_66 ||| T_0F) ||| T_YMM) 0x7F NONE.
(* xbyak_mnemonic.h:1336 *)
Definition i_vmovdqa_xo (p_xm : Reg) (p_op : Operand) : E unit :=
  opAVX_X_XM_IMM p_xm p_op ((T_66 ||| T_0F) ||| T_YMM) 0x6F NONE.
(* xbyak_mnemonic.h:1337 *)
Definition i_vmovdqu_ax (p_addr : Address) (p_xmm : Reg) : E unit :=
  opAVX_X_XM_IMM p_xmm (OMem p_addr) ((T_F3 ||| T_0F) ||| T_YMM) 0x7F NONE.
(* xbyak_mnemonic.h:1338 *)
Definition i_vmovdqu_xo (p_xm : Reg) (p_op : Operand) : E unit :=
  opAVX_X_XM_IMM p_xm p_op ((T_F3 ||| T_0F) ||| T_YMM) 0x6F NONE.
(* xbyak_mnemonic.h:1339 *)
Definition i_vmovhlps (p_x1 : Reg) (p_x2 : Reg) (p_op : Operand) : E unit :=
  fn tt (if ((negb (isNone (ob p_op))) && (negb (isXMM (ob p_op)))) then throw ERR_BAD_COMBINATION else opAVX_X_X_XM p_x1 (OReg p_x2) p_op ((T_0F ||| T_EVEX) ||| T_EW0) 0x12 NONE).
(* xbyak_mnemonic.h:1340 *)
Definition i_vmovhpd_ax (p_addr : Address) (p_x : Reg) : E unit :=
  opAVX_X_X_XM p_x (OReg (Xmm 0)) (OMem p_addr) ((((T_N8 ||| T_66) ||| T_0F) ||| T_EW1) ||| T_EVEX) 0x17 NONE.
(* xbyak_mnemonic.h:1341 *)
Definition i_vmovhpd_xoo (p_x : Reg) (p_op1 : Operand) (p_op2 : Operand) : E unit :=
  fn tt (if ((negb (isNone (ob p_op2))) && (negb (isMEM p_op2))) then throw ERR_BAD_COMBINATION else opAVX_X_X_XM p_x p_op1 p_op2 ((((T_N8 ||| T_66) ||| T_0F) ||| T_EW1) ||| T_EVEX) 0x16 NONE).
(* xbyak_mnemonic.h:1342 *)
Definition i_vmovhps_ax (p_addr : Address) (p_x : Reg) : E unit :=
  opAVX_X_X_XM p_x (OReg (Xmm 0)) (OMem p_addr) (((T_N8 ||| T_0F) ||| T_EW0) ||| T_EVEX) 0x17 NONE.
(* xbyak_mnemonic.h:1343 *)
Definition i_vmovhps_xoo (p_x : Reg) (p_op1 : Operand) (p_op2 : Operand) : E unit :=
  fn tt (if ((negb (isNone (ob p_op2))) && (negb (isMEM p_op2))) then throw ERR_BAD_COMBINATION else opAVX_X_X_XM p_x p_op1 p_op2 (((T_N8 ||| T_0F) ||| T_EW0) ||| T_EVEX) 0x16 NONE).
(* xbyak_mnemonic.h:1344 *)
Definition i_vmovlhps (p_x1 : Reg) (p_x2 : Reg) (p_op : Operand) : E unit :=
  fn tt (if ((negb (isNone (ob p_op))) && (negb (isXMM (ob p_op)))) then throw ERR_BAD_COMBINATION else opAVX_X_X_XM p_x1 (OReg p_x2) p_op ((T_0F ||| T_EVEX) ||| T_EW0) 0x16 NONE).
(* xbyak_mnemonic.h:1345 *)
Definition i_vmovlpd_ax (p_addr : Address) (p_x : Reg) : E unit :=
  opAVX_X_X_XM p_x (OReg (Xmm 0)) (OMem p_addr) ((((T_N8 ||| T_66) ||| T_0F) ||| T_EW1) ||| T_EVEX) 0x13 NONE.
(* xbyak_mnemonic.h:1346 *)
Definition i_vmovlpd_xoo (p_x : Reg) (p_op1 : Operand) (p_op2 : Operand) : E unit :=
  fn tt (if ((negb (isNone (ob p_op2))) && (negb (isMEM p_op2))) then throw ERR_BAD_COMBINATION else opAVX_X_X_XM p_x p_op1 p_op2 ((((T_N8 ||| T_66) ||| T_0F) ||| T_EW1) ||| T_EVEX) 0x12 NONE).
(* xbyak_mnemonic.h:1347 *)
Definition i_vmovlps_ax (p_addr : Address) (p_x : Reg) : E unit :=
  opAVX_X_X_XM p_x (OReg (Xmm 0)) (OMem p_addr) (((T_N8 ||| T_0F) ||| T_EW0) ||| T_EVEX) 0x13 NONE.
(* xbyak_mnemonic.h:1348 *)
Definition i_vmovlps_xoo (p_x : Reg) (p_op1 : Operand) (p_op2 : Operand) : E unit :=
  fn tt (if ((negb (isNone (ob p_op2))) && (negb (isMEM p_op2))) then throw ERR_BAD_COMBINATION else opAVX_X_X_XM p_x p_op1 p_op2 (((T_N8 ||| T_0F) ||| T_EW0) ||| T_EVEX) 0x12 NONE).
(* xbyak_mnemonic.h:1349 *)
Definition i_vmovmskpd (p_r : Reg) (p_x : Reg) : E unit :=
  fn tt (if (negb (isBit p_r i32e)) then throw ERR_BAD_COMBINATION else opAVX_X_X_XM (if (isXMM p_x) then (Xmm (getIdx p_r)) else (Ymm (getIdx p_r))) (OReg (cvtIdx0 (OReg p_x))) (OReg p_x) (((T_0F ||| T_66) ||| T_W0) ||| T_YMM) 0x50 NONE).
(* xbyak_mnemonic.h:1350 *)
Definition i_vmovmskps (p_r : Reg) (p_x : Reg) : E unit :=
  fn tt (if (negb (isBit p_r i32e)) then throw ERR_BAD_COMBINATION else opAVX_X_X_XM (if (isXMM p_x) then (Xmm (getIdx p_r)) else (Ymm (getIdx p_r))) (OReg (cvtIdx0 (OReg p_x))) (OReg p_x) ((T_0F ||| T_W0) ||| T_YMM) 0x50 NONE).
(* xbyak_mnemonic.h:1351 *)
Definition i_vmovntdq (p_addr : Address) (p_x : Reg) : E unit :=
  opVex p_x None (OMem p_addr) ((((T_0F ||| T_66) ||| T_YMM) ||| T_EVEX) ||| T_EW0) 0xE7 NONE.
(* xbyak_mnemonic.h:1352 *)
Definition i_vmovntdqa (p_x : Reg) (p_addr : Address) : E unit :=
  opVex p_x None (OMem p_addr) ((((T_0F38 ||| T_66) ||| T_YMM) ||| T_EVEX) ||| T_EW0) 0x2A NONE.
(* xbyak_mnemonic.h:1353 *)
Definition i_vmovntpd (p_addr : Address) (p_x : Reg) : E unit :=
  opVex p_x None (OMem p_addr) ((((T_0F ||| T_66) ||| T_YMM) ||| T_EVEX) ||| T_EW1) 0x2B NONE.
(* xbyak_mnemonic.h:1354 *)
Definition i_vmovntps (p_addr : Address) (p_x : Reg) : E unit :=
  opVex p_x None (OMem p_addr) (((T_0F ||| T_YMM) ||| T_EVEX) ||| T_EW0) 0x2B NONE.
(* xbyak_mnemonic.h:1355 *)
Definition i_vmovq_ax (p_addr : Address) (p_x : Reg) : E unit :=
  opAVX_X_X_XM p_x (OReg (Xmm 0)) (OMem p_addr) ((((T_0F ||| T_66) ||| T_EVEX) ||| T_EW1) ||| T_N8) (if ((getIdx p_x) <? 16) then 0xD6 else 0x7E) NONE.
(* xbyak_mnemonic.h:1356 *)
Definition i_vmovq_xa (p_x : Reg) (p_addr : Address) : E unit :=
  let v_type := if ((getIdx p_x) <? 16) then (T_0F ||| T_F3) else ((((T_0F ||| T_66) ||| T_EVEX) ||| T_EW1) ||| T_N8) in let v_code := if ((getIdx p_x) <? 16) then 0x7E else 0x6E in opAVX_X_X_XM p_x (OReg (Xmm 0)) (OMem p_addr) v_type v_code NONE.
(* xbyak_mnemonic.h:1357 *)
Definition i_vmovq_xx (p_x1 : Reg) (p_x2 : Reg) : E unit :=
  opAVX_X_X_XM p_x1 (OReg (Xmm 0)) (OReg p_x2) ((((T_0F ||| T_F3) ||| T_EVEX) ||| T_EW1) ||| T_N8) 0x7E NONE.
(* xbyak_mnemonic.h:1358 *)
Definition i_vmovsd_ax (p_addr : Address) (p_x : Reg) : E unit :=
  opAVX_X_X_XM p_x (OReg (Xmm 0)) (OMem p_addr) (((((T_N8 ||| T_F2) ||| T_0F) ||| T_EW1) ||| T_EVEX) ||| T_M_K) 0x11 NONE.
(* xbyak_mnemonic.h:1359 *)
Definition i_vmovsd_xa (p_x : Reg) (p_addr : Address) : E unit :=
  opAVX_X_X_XM p_x (OReg (Xmm 0)) (OMem p_addr) ((((T_N8 ||| T_F2) ||| T_0F) ||| T_EW1) ||| T_EVEX) 0x10 NONE.
(* xbyak_mnemonic.h:1360 *)
Definition i_vmovsd_xxo (p_x1 : Reg) (p_x2 : Reg) (p_op : Operand) : E unit :=
  fn tt (if ((negb (isNone (ob p_op))) && (negb (isXMM (ob p_op)))) then throw ERR_BAD_COMBINATION else opAVX_X_X_XM p_x1 (OReg p_x2) p_op ((((T_N8 ||| T_F2) ||| T_0F) ||| T_EW1) ||| T_EVEX) 0x10 NONE).
(* xbyak_mnemonic.h:1361 *)
Definition i_vmovshdup (p_xm : Reg) (p_op : Operand) : E unit :=
  opAVX_X_XM_IMM p_xm p_op ((((T_F3 ||| T_0F) ||| T_EW0) ||| T_YMM) ||| T_EVEX) 0x16 NONE.
(* xbyak_mnemonic.h:1362 *)
Definition i_vmovsldup (p_xm : Reg) (p_op : Operand) : E unit :=
  opAVX_X_XM_IMM p_xm p_op ((((T_F3 ||| T_0F) ||| T_EW0) ||| T_YMM) ||| T_EVEX) 0x12 NONE.
(* xbyak_mnemonic.h:1363 *)
Definition i_vmovss_ax (p_addr : Address) (p_x : Reg) : E unit :=
  opAVX_X_X_XM p_x (OReg (Xmm 0)) (OMem p_addr) (((((T_N4 ||| T_F3) ||| T_0F) ||| T_EW0) ||| T_EVEX) ||| T_M_K) 0x11 NONE.
(* xbyak_mnemonic.h:1364 *)
Definition i_vmovss_xa (p_x : Reg) (p_addr : Address) : E unit :=
  opAVX_X_X_XM p_x (OReg (Xmm 0)) (OMem p_addr) ((((T_N4 ||| T_F3) ||| T_0F) ||| T_EW0) ||| T_EVEX) 0x10 NONE.
(* xbyak_mnemonic.h:1365 *)
Definition i_vmovss_xxo (p_x1 : Reg) (p_x2 : Reg) (p_op : Operand) : E unit :=
  fn tt (if ((negb (isNone (ob p_op))) && (negb (isXMM (ob p_op)))) then throw ERR_BAD_COMBINATION else opAVX_X_X_XM p_x1 (OReg p_x2) p_op ((((T_N4 ||| T_F3) ||| T_0F) ||| T_EW0) ||| T_EVEX) 0x10 NONE).
(* xbyak_mnemonic.h:1366 *)
Definition i_vmovupd_ax (p_addr : Address) (p_xmm : Reg) : E unit :=
  opAVX_X_XM_IMM p_xmm (OMem p_addr) (((((T_66 ||| T_0F) ||| T_EW1) ||| T_YMM) ||| T_EVEX) ||| T_M_K) 0x11 NONE.
(* xbyak_mnemonic.h:1367 *)
Definition i_vmovupd_xo (p_xm : Reg) (p_op : Operand) : E unit :=
  opAVX_X_XM_IMM p_xm p_op ((((T_66 ||| T_0F) ||| T_EW1) ||| T_YMM) ||| T_EVEX) 0x10 NONE.
(* xbyak_mnemonic.h:1368 *)
Definition i_vmovups_ax (p_addr : Address) (p_xmm : Reg) : E unit :=
  opAVX_X_XM_IMM p_xmm (OMem p_addr) ((((T_0F ||| T_EW0) ||| T_YMM) ||| T_EVEX) ||| T_M_K) 0x11 NONE.
(* xbyak_mnemonic.h:1369 *)
Definition i_vmovups_xo (p_xm : Reg) (p_op : Operand) : E unit :=
  opAVX_X_XM_IMM p_xm p_op (((T_0F ||| T_EW0) ||| T_YMM) ||| T_EVEX) 0x10 NONE.
(* xbyak_mnemonic.h:1370 *)
Definition i_vmulpd (p_xmm : Reg) (p_op1 : Operand) (p_op2 : Operand) : E unit :=
  opAVX_X_X_XM p_xmm p_op1 p_op2 ((((((T_0F ||| T_66) ||| T_EW1) ||| T_YMM) ||| T_EVEX) ||| T_ER_Z) ||| T_B64) 0x59 NONE.
(* xbyak_mnemonic.h:1371 *)
Definition i_vmulps (p_xmm : Reg) (p_op1 : Operand) (p_op2 : Operand) : E unit :=
  opAVX_X_X_XM p_xmm p_op1 p_op2 (((((T_0F ||| T_EW0) ||| T_YMM) ||| T_EVEX) ||| T_ER_Z) ||| T_B32) 0x59 NONE.
(* xbyak_mnemonic.h:1372 *)
Definition i_vmulsd (p_xmm : Reg) (p_op1 : Operand) (p_op2 : Operand) : E unit :=
  opAVX_X_X_XM p_xmm p_op1 p_op2 (((((T_0F ||| T_F2) ||| T_EW1) ||| T_EVEX) ||| T_ER_X) ||| T_N8) 0x59 NONE.
(* xbyak_mnemonic.h:1373 *)
Definition i_vmulss (p_xmm : Reg) (p_op1 : Operand) (p_op2 : Operand) : E unit :=
  opAVX_X_X_XM p_xmm p_op1 p_op2 (((((T_0F ||| T_F3) ||| T_EW0) ||| T_EVEX) ||| T_ER_X) ||| T_N4) 0x59 NONE.
(* xbyak_mnemonic.h:1374 *)
Definition i_vorpd (p_xmm : Reg) (p_op1 : Operand) (p_op2 : Operand) : E unit :=
  opAVX_X_X_XM p_xmm p_op1 p_op2 (((((T_0F ||| T_66) ||| T_EW1) ||| T_YMM) ||| T_EVEX) ||| T_B64) 0x56 NONE.
(* xbyak_mnemonic.h:1375 *)
Definition i_vorps (p_xmm : Reg) (p_op1 : Operand) (p_op2 : Operand) : E unit :=
  opAVX_X_X_XM p_xmm p_op1 p_op2 ((((T_0F ||| T_EW0) ||| T_YMM) ||| T_EVEX) ||| T_B32) 0x56 NONE.
(* xbyak_mnemonic.h:1376 *)
Definition i_vpabsb (p_xm : Reg) (p_op : Operand) : E unit :=
  opAVX_X_XM_IMM p_xm p_op (((T_66 ||| T_0F38) ||| T_YMM) ||| T_EVEX) 0x1C NONE.
(* xbyak_mnemonic.h:1377 *)
Definition i_vpabsd (p_xm : Reg) (p_op : Operand) : E unit :=
  opAVX_X_XM_IMM p_xm p_op (((((T_66 ||| T_0F38) ||| T_EW0) ||| T_YMM) ||| T_EVEX) ||| T_B32) 0x1E NONE.
(* xbyak_mnemonic.h:1378 *)
Definition i_vpabsw (p_xm : Reg) (p_op : Operand) : E unit :=
  opAVX_X_XM_IMM p_xm p_op (((T_66 ||| T_0F38) ||| T_YMM) ||| T_EVEX) 0x1D NONE.
(* xbyak_mnemonic.h:1379 *)
Definition i_vpackssdw_xxo (p_x1 : Reg) (p_x2 : Reg) (p_op : Operand) : E unit :=
  opAVX_X_X_XM p_x1 (OReg p_x2) p_op (((((T_66 ||| T_0F) ||| T_EW0) ||| T_YMM) ||| T_EVEX) ||| T_B32) 0x6B NONE.
(* xbyak_mnemonic.h:1380 *)
Definition i_vpacksswb_xxo (p_x1 : Reg) (p_x2 : Reg) (p_op : Operand) : E unit :=
  opAVX_X_X_XM p_x1 (OReg p_x2) p_op (((T_66 ||| T_0F) ||| T_YMM) ||| T_EVEX) 0x63 NONE.
(* xbyak_mnemonic.h:1381 *)
Definition i_vpackusdw_xxo (p_x1 : Reg) (p_x2 : Reg) (p_op : Operand) : E unit :=
  opAVX_X_X_XM p_x1 (OReg p_x2) p_op (((((T_66 ||| T_0F38) ||| T_EW0) ||| T_YMM) ||| T_EVEX) ||| T_B32) 0x2B NONE.
(* xbyak_mnemonic.h:1382 *)
Definition i_vpackuswb_xxo (p_x1 : Reg) (p_x2 : Reg) (p_op : Operand) : E unit :=
  opAVX_X_X_XM p_x1 (OReg p_x2) p_op (((T_66 ||| T_0F) ||| T_YMM) ||| T_EVEX) 0x67 NONE.
(* xbyak_mnemonic.h:1383 *)
Definition i_vpaddb_xxo (p_x1 : Reg) (p_x2 : Reg) (p_op : Operand) : E unit :=
  opAVX_X_X_XM p_x1 (OReg p_x2) p_op (((T_66 ||| T_0F) ||| T_YMM) ||| T_EVEX) 0xFC NONE.
(* xbyak_mnemonic.h:1384 *)
Definition i_vpaddd_xxo (p_x1 : Reg) (p_x2 : Reg) (p_op : Operand) : E unit :=
  opAVX_X_X_XM p_x1 (OReg p_x2) p_op (((((T_66 ||| T_0F) ||| T_EW0) ||| T_YMM) ||| T_EVEX) ||| T_B32) 0xFE NONE.
(* xbyak_mnemonic.h:1385 *)
Definition i_vpaddq_xxo (p_x1 : Reg) (p_x2 : Reg) (p_op : Operand) : E unit :=
  opAVX_X_X_XM p_x1 (OReg p_x2) p_op (((((T_66 ||| T_0F) ||| T_EW1) ||| T_YMM) ||| T_EVEX) ||| T_B64) 0xD4 NONE.
(* xbyak_mnemonic.h:1386 *)
Definition i_vpaddsb_xxo (p_x1 : Reg) (p_x2 : Reg) (p_op : Operand) : E unit :=
  opAVX_X_X_XM p_x1 (OReg p_x2) p_op (((T_66 ||| T_0F) ||| T_YMM) ||| T_EVEX) 0xEC NONE.
(* xbyak_mnemonic.h:1387 *)
Definition i_vpaddsw_xxo (p_x1 : Reg) (p_x2 : Reg) (p_op : Operand) : E unit :=
  opAVX_X_X_XM p_x1 (OReg p_x2) p_op (((T_66 ||| T_0F) ||| T_YMM) ||| T_EVEX) 0xED NONE.
(* xbyak_mnemonic.h:1388 *)
Definition i_vpaddusb_xxo (p_x1 : Reg) (p_x2 : Reg) (p_op : Operand) : E unit :=
  opAVX_X_X_XM p_x1 (OReg p_x2) p_op (((T_66 ||| T_0F) ||| T_YMM) ||| T_EVEX) 0xDC NONE.
(* xbyak_mnemonic.h:1389 *)
Definition i_vpaddusw_xxo (p_x1 : Reg) (p_x2 : Reg) (p_op : Operand) : E unit :=
  opAVX_X_X_XM p_x1 (OReg p_x2) p_op (((T_66 ||| T_0F) ||| T_YMM) ||| T_EVEX) 0xDD NONE.
(* xbyak_mnemonic.h:1390 *)
Definition i_vpaddw_xxo (p_x1 : Reg) (p_x2 : Reg) (p_op : Operand) : E unit :=
  opAVX_X_X_XM p_x1 (OReg p_x2) p_op (((T_66 ||| T_0F) ||| T_YMM) ||| T_EVEX) 0xFD NONE.
(* xbyak_mnemonic.h:1391 *)
Definition i_vpalignr_xxoi (p_x1 : Reg) (p_x2 : Reg) (p_op : Operand) (p_imm : Z) : E unit :=
  let p_imm := w8 p_imm in opAVX_X_X_XM p_x1 (OReg p_x2) p_op (((T_66 ||| T_0F3A) ||| T_YMM) ||| T_EVEX) 0x0F p_imm.
(* xbyak_mnemonic.h:1392 *)
Definition i_vpand_xxo (p_x1 : Reg) (p_x2 : Reg) (p_op : Operand) : E unit :=
  opAVX_X_X_XM p_x1 (OReg p_x2) p_op ((T_66 ||| T_0F) ||| T_YMM) 0xDB NONE.
(* xbyak_mnemonic.h:1393 *)
Definition i_vpandn_xxo (p_x1 : Reg) (p_x2 : Reg) (p_op : Operand) : E unit :=
  opAVX_X_X_XM p_x1 (OReg p_x2) p_op ((T_66 ||| T_0F) ||| T_YMM) 0xDF NONE.
(* xbyak_mnemonic.h:1394 *)
Definition i_vpavgb_xxo (p_x1 : Reg) (p_x2 : Reg) (p_op : Operand) : E unit :=
  opAVX_X_X_XM p_x1 (OReg p_x2) p_op (((T_66 ||| T_0F) ||| T_YMM) ||| T_EVEX) 0xE0 NONE.
(* xbyak_mnemonic.h:1395 *)
Definition i_vpavgw_xxo (p_x1 : Reg) (p_x2 : Reg) (p_op : Operand) : E unit :=
  opAVX_X_X_XM p_x1 (OReg p_x2) p_op (((T_66 ||| T_0F) ||| T_YMM) ||| T_EVEX) 0xE3 NONE.
(* xbyak_mnemonic.h:1396 *)
Definition i_vpblendd_xxoi (p_x1 : Reg) (p_x2 : Reg) (p_op : Operand) (p_imm : Z) : E unit :=
  let p_imm := w8 p_imm in opAVX_X_X_XM p_x1 (OReg p_x2) p_op (((T_66 ||| T_0F3A) ||| T_W0) ||| T_YMM) 0x02 p_imm.
(* xbyak_mnemonic.h:1397 *)
Definition i_vpblendvb_xxox (p_x1 : Reg) (p_x2 : Reg) (p_op : Operand) (p_x4 : Reg) : E unit :=
  opAVX_X_X_XM p_x1 (OReg p_x2) p_op ((T_0F3A ||| T_66) ||| T_YMM) 0x4C ((getIdx p_x4) <<< 4).
(* xbyak_mnemonic.h:1398 *)
Definition i_vpblendw_xxoi (p_x1 : Reg) (p_x2 : Reg) (p_op : Operand) (p_imm : Z) : E unit :=
  let p_imm := w8 p_imm in opAVX_X_X_XM p_x1 (OReg p_x2) p_op (((T_66 ||| T_0F3A) ||| T_W0) ||| T_YMM) 0x0E p_imm.
(* xbyak_mnemonic.h:1399 *)
Definition i_vpbroadcastb_xo (p_x : Reg) (p_op : Operand) : E unit :=
  fn tt (if (negb ((isXMM (ob p_op)) || (isMEM p_op))) then throw ERR_BAD_COMBINATION else opAVX_X_XM_IMM p_x p_op (((((T_N1 ||| T_66) ||| T_0F38) ||| T_W0) ||| T_YMM) ||| T_EVEX) 0x78 NONE).
(* xbyak_mnemonic.h:1400 *)
Definition i_vpbroadcastd_xo (p_x : Reg) (p_op : Operand) : E unit :=
  fn tt (if (negb ((isXMM (ob p_op)) || (isMEM p_op))) then throw ERR_BAD_COMBINATION else opAVX_X_XM_IMM p_x p_op (((((T_N4 ||| T_66) ||| T_0F38) ||| T_W0) ||| T_YMM) ||| T_EVEX) 0x58 NONE).
(* xbyak_mnemonic.h:1401 *)
Definition i_vpbroadcastq_xo (p_x : Reg) (p_op : Operand) : E unit :=
  fn tt (if (negb ((isXMM (ob p_op)) || (isMEM p_op))) then throw ERR_BAD_COMBINATION else opAVX_X_XM_IMM p_x p_op ((((((T_N8 ||| T_66) ||| T_0F38) ||| T_W0) ||| T_EW1) ||| T_YMM) ||| T_EVEX) 0x59 NONE).
(* xbyak_mnemonic.h:1402 *)
Definition i_vpbroadcastw_xo (p_x : Reg) (p_op : Operand) : E unit :=
  fn tt (if (negb ((isXMM (ob p_op)) || (isMEM p_op))) then throw ERR_BAD_COMBINATION else opAVX_X_XM_IMM p_x p_op (((((T_N2 ||| T_66) ||| T_0F38) ||| T_W0) ||| T_YMM) ||| T_EVEX) 0x79 NONE).
(* xbyak_mnemonic.h:1407 *)
Definition i_vpclmulqdq_xxoi (p_x1 : Reg) (p_x2 : Reg) (p_op : Operand) (p_imm : Z) : E unit :=
  let p_imm := w8 p_imm in opAVX_X_X_XM p_x1 (OReg p_x2) p_op ((((T_66 ||| T_0F3A) ||| T_W0) ||| T_YMM) ||| T_EVEX) 0x44 p_imm.
(* xbyak_mnemonic.h:1403 *)
Definition i_vpclmulhqhqdq (p_x1 : Reg) (p_x2 : Reg) (p_op : Operand) : E unit :=
  i_vpclmulqdq_xxoi p_x1 p_x2 p_op 0x11.
(* xbyak_mnemonic.h:1404 *)
Definition i_vpclmulhqlqdq (p_x1 : Reg) (p_x2 : Reg) (p_op : Operand) : E unit :=
  i_vpclmulqdq_xxoi p_x1 p_x2 p_op 0x01.
(* xbyak_mnemonic.h:1405 *)
Definition i_vpclmullqhqdq (p_x1 : Reg) (p_x2 : Reg) (p_op : Operand) : E unit :=
  i_vpclmulqdq_xxoi p_x1 p_x2 p_op 0x10.
(* xbyak_mnemonic.h:1406 *)
Definition i_vpclmullqlqdq (p_x1 : Reg) (p_x2 : Reg) (p_op : Operand) : E unit :=
  i_vpclmulqdq_xxoi p_x1 p_x2 p_op 0x00.
(* xbyak_mnemonic.h:1408 *)
Definition i_vpcmpeqb_xxo (p_x1 : Reg) (p_x2 : Reg) (p_op : Operand) : E unit :=
  opAVX_X_X_XM p_x1 (OReg p_x2) p_op ((T_66 ||| T_0F) ||| T_YMM) 0x74 NONE.
(* xbyak_mnemonic.h:1409 *)
Definition i_vpcmpeqd_xxo (p_x1 : Reg) (p_x2 : Reg) (p_op : Operand) : E unit :=
  opAVX_X_X_XM p_x1 (OReg p_x2) p_op ((T_66 ||| T_0F) ||| T_YMM) 0x76 NONE.
(* xbyak_mnemonic.h:1410 *)
Definition i_vpcmpeqq_xxo (p_x1 : Reg) (p_x2 : Reg) (p_op : Operand) : E unit :=
  opAVX_X_X_XM p_x1 (OReg p_x2) p_op ((T_66 ||| T_0F38) ||| T_YMM) 0x29 NONE.
(* xbyak_mnemonic.h:1411 *)
Definition i_vpcmpeqw_xxo (p_x1 : Reg) (p_x2 : Reg) (p_op : Operand) : E unit :=
  opAVX_X_X_XM p_x1 (OReg p_x2) p_op ((T_66 ||| T_0F) ||| T_YMM) 0x75 NONE.
(* xbyak_mnemonic.h:1412 *)
Definition i_vpcmpestri (p_xm : Reg) (p_op : Operand) (p_imm : Z) : E unit :=
  let p_imm := w8 p_imm in opAVX_X_XM_IMM p_xm p_op (T_66 ||| T_0F3A) 0x61 p_imm.
(* xbyak_mnemonic.h:1413 *)
Definition i_vpcmpestrm (p_xm : Reg) (p_op : Operand) (p_imm : Z) : E unit :=
  let p_imm := w8 p_imm in opAVX_X_XM_IMM p_xm p_op (T_66 ||| T_0F3A) 0x60 p_imm.
(* xbyak_mnemonic.h:1414 *)
Definition i_vpcmpgtb_xxo (p_x1 : Reg) (p_x2 : Reg) (p_op : Operand) : E unit :=
  opAVX_X_X_XM p_x1 (OReg p_x2) p_op ((T_66 ||| T_0F) ||| T_YMM) 0x64 NONE.
(* xbyak_mnemonic.h:1415 *)
Definition i_vpcmpgtd_xxo (p_x1 : Reg) (p_x2 : Reg) (p_op : Operand) : E unit :=
  opAVX_X_X_XM p_x1 (OReg p_x2) p_op ((T_66 ||| T_0F) ||| T_YMM) 0x66 NONE.
(* xbyak_mnemonic.h:1416 *)
Definition i_vpcmpgtq_xxo (p_x1 : Reg) (p_x2 : Reg) (p_op : Operand) : E unit :=
  opAVX_X_X_XM p_x1 (OReg p_x2) p_op ((T_66 ||| T_0F38) ||| T_YMM) 0x37 NONE.
(* xbyak_mnemonic.h:1417 *)
Definition i_vpcmpgtw_xxo (p_x1 : Reg) (p_x2 : Reg) (p_op : Operand) : E unit :=
  opAVX_X_X_XM p_x1 (OReg p_x2) p_op ((T_66 ||| T_0F) ||| T_YMM) 0x65 NONE.
(* xbyak_mnemonic.h:1418 *)
Definition i_vpcmpistri (p_xm : Reg) (p_op : Operand) (p_imm : Z) : E unit :=
  let p_imm := w8 p_imm in opAVX_X_XM_IMM p_xm p_op (T_66 ||| T_0F3A) 0x63 p_imm.
(* xbyak_mnemonic.h:1419 *)
Definition i_vpcmpistrm (p_xm : Reg) (p_op : Operand) (p_imm : Z) : E unit :=
  let p_imm := w8 p_imm in opAVX_X_XM_IMM p_xm p_op (T_66 ||| T_0F3A) 0x62 p_imm.
(* xbyak_mnemonic.h:1420 *)
Definition i_vpdpbusd (p_x1 : Reg) (p_x2 : Reg) (p_op : Operand) (p_encoding : PreferredEncoding) : E unit :=
  opEncoding p_x1 p_x2 p_op (((((T_66 ||| T_0F38) ||| T_EW0) ||| T_YMM) ||| T_SAE_Z) ||| T_B32) 0x50 p_encoding NONE 0 0 0.
(* xbyak_mnemonic.h:1421 *)
Definition i_vpdpbusds (p_x1 : Reg) (p_x2 : Reg) (p_op : Operand) (p_encoding : PreferredEncoding) : E unit :=
  opEncoding p_x1 p_x2 p_op (((((T_66 ||| T_0F38) ||| T_EW0) ||| T_YMM) ||| T_SAE_Z) ||| T_B32) 0x51 p_encoding NONE 0 0 0.
(* xbyak_mnemonic.h:1422 *)
Definition i_vpdpwssd (p_x1 : Reg) (p_x2 : Reg) (p_op : Operand) (p_encoding : PreferredEncoding) : E unit :=
  opEncoding p_x1 p_x2 p_op (((((T_66 ||| T_0F38) ||| T_EW0) ||| T_YMM) ||| T_SAE_Z) ||| T_B32) 0x52 p_encoding NONE 0 0 0.
(* xbyak_mnemonic.h:1423 *)
Definition i_vpdpwssds (p_x1 : Reg) (p_x2 : Reg) (p_op : Operand) (p_encoding : PreferredEncoding) : E unit :=
  opEncoding p_x1 p_x2 p_op (((((T_66 ||| T_0F38) ||| T_EW0) ||| T_YMM) ||| T_SAE_Z) ||| T_B32) 0x53 p_encoding NONE 0 0 0.
(* xbyak_mnemonic.h:1424 *)
Definition i_vperm2f128 (p_y1 : Reg) (p_y2 : Reg) (p_op : Operand) (p_imm : Z) : E unit :=
  fn tt (let p_imm := w8 p_imm in if (negb (((isYMM p_y1) && (isYMM p_y2)) && (isYMEM (ob p_op)))) then throw ERR_BAD_COMBINATION else opVex p_y1 (Some p_y2) p_op (((T_0F3A ||| T_66) ||| T_W0) ||| T_YMM) 0x06 p_imm).
(* xbyak_mnemonic.h:1425 *)
Definition i_vperm2i128 (p_y1 : Reg) (p_y2 : Reg) (p_op : Operand) (p_imm : Z) : E unit :=
  fn tt (let p_imm := w8 p_imm in if (negb (((isYMM p_y1) && (isYMM p_y2)) && (isYMEM (ob p_op)))) then throw ERR_BAD_COMBINATION else opVex p_y1 (Some p_y2) p_op (((T_0F3A ||| T_66) ||| T_W0) ||| T_YMM) 0x46 p_imm).
(* xbyak_mnemonic.h:1426 *)
Definition i_vpermd (p_y1 : Reg) (p_y2 : Reg) (p_op : Operand) : E unit :=
  opAVX_X_X_XM p_y1 (OReg p_y2) p_op ((((((T_66 ||| T_0F38) ||| T_W0) ||| T_EW0) ||| T_YMM) ||| T_EVEX) ||| T_B32) 0x36 NONE.
(* xbyak_mnemonic.h:1427 *)
Definition i_vpermilpd_xxo (p_x1 : Reg) (p_x2 : Reg) (p_op : Operand) : E unit :=
  opAVX_X_X_XM p_x1 (OReg p_x2) p_op ((((((T_66 ||| T_0F38) ||| T_W0) ||| T_EW1) ||| T_YMM) ||| T_EVEX) ||| T_B64) 0x0D NONE.
(* xbyak_mnemonic.h:1428 *)
Definition i_vpermilpd_xoi (p_xm : Reg) (p_op : Operand) (p_imm : Z) : E unit :=
  let p_imm := w8 p_imm in opAVX_X_XM_IMM p_xm p_op (((((T_66 ||| T_0F3A) ||| T_EW1) ||| T_YMM) ||| T_EVEX) ||| T_B64) 0x05 p_imm.
(* xbyak_mnemonic.h:1429 *)
Definition i_vpermilps_xxo (p_x1 : Reg) (p_x2 : Reg) (p_op : Operand) : E unit :=
  opAVX_X_X_XM p_x1 (OReg p_x2) p_op ((((((T_66 ||| T_0F38) ||| T_W0) ||| T_EW0) ||| T_YMM) ||| T_EVEX) ||| T_B32) 0x0C NONE.
(* xbyak_mnemonic.h:1430 *)
Definition i_vpermilps_xoi (p_xm : Reg) (p_op : Operand) (p_imm : Z) : E unit :=
  let p_imm := w8 p_imm in opAVX_X_XM_IMM p_xm p_op (((((T_66 ||| T_0F3A) ||| T_EW0) ||| T_YMM) ||| T_EVEX) ||| T_B32) 0x04 p_imm.
(* xbyak_mnemonic.h:1431 *)
Definition i_vpermpd_yoi (p_y : Reg) (p_op : Operand) (p_imm : Z) : E unit :=
  let p_imm := w8 p_imm in opAVX_X_XM_IMM p_y p_op ((((((T_66 ||| T_0F3A) ||| T_W1) ||| T_EW1) ||| T_YMM) ||| T_EVEX) ||| T_B64) 0x01 p_imm.
(* xbyak_mnemonic.h:1432 *)
Definition i_vpermpd_yyo (p_y1 : Reg) (p_y2 : Reg) (p_op : Operand) : E unit :=
  opAVX_X_X_XM p_y1 (OReg p_y2) p_op (((((T_66 ||| T_0F38) ||| T_EW1) ||| T_YMM) ||| T_MUST_EVEX) ||| T_B64) 0x16 NONE.
(* xbyak_mnemonic.h:1433 *)
Definition i_vpermps (p_y1 : Reg) (p_y2 : Reg) (p_op : Operand) : E unit :=
  opAVX_X_X_XM p_y1 (OReg p_y2) p_op ((((((T_66 ||| T_0F38) ||| T_W0) ||| T_EW0) ||| T_YMM) ||| T_EVEX) ||| T_B32) 0x16 NONE.
(* xbyak_mnemonic.h:1434 *)
Definition i_vpermq_yoi (p_y : Reg) (p_op : Operand) (p_imm : Z) : E unit :=
  let p_imm := w8 p_imm in opAVX_X_XM_IMM p_y p_op ((((((T_66 ||| T_0F3A) ||| T_W1) ||| T_EW1) ||| T_YMM) ||| T_EVEX) ||| T_B64) 0x00 p_imm.
(* xbyak_mnemonic.h:1435 *)
Definition i_vpermq_yyo (p_y1 : Reg) (p_y2 : Reg) (p_op : Operand) : E unit :=
  opAVX_X_X_XM p_y1 (OReg p_y2) p_op ((((((T_66 ||| T_0F38) ||| T_W0) ||| T_EW1) ||| T_YMM) ||| T_EVEX) ||| T_B64) 0x36 NONE.
(* xbyak_mnemonic.h:1436 *)
Definition i_vpextrb (p_op : Operand) (p_x : Reg) (p_imm : Z) : E unit :=
  fn tt (let p_imm := w8 p_imm in if (negb (((isREGb (ob p_op) ((8 ||| 16) ||| i32e)) || (isMEM p_op)) && (isXMM p_x))) then throw ERR_BAD_COMBINATION else opVex p_x None p_op (((T_0F3A ||| T_66) ||| T_EVEX) ||| T_N1) 0x14 p_imm).
(* xbyak_mnemonic.h:1437 *)
Definition i_vpextrd (p_op : Operand) (p_x : Reg) (p_imm : Z) : E unit :=
  fn tt (let p_imm := w8 p_imm in if (negb (((isREGb (ob p_op) 32) || (isMEM p_op)) && (isXMM p_x))) then throw ERR_BAD_COMBINATION else opVex p_x None p_op (((((T_0F3A ||| T_66) ||| T_W0) ||| T_EVEX) ||| T_EW0) ||| T_N4) 0x16 p_imm).
(* xbyak_mnemonic.h:1438 *)
Definition i_vpextrq (p_op : Operand) (p_x : Reg) (p_imm : Z) : E unit :=
  fn tt (let p_imm := w8 p_imm in if (negb (((isREGb (ob p_op) 64) || (isMEM p_op)) && (isXMM p_x))) then throw ERR_BAD_COMBINATION else opVex p_x None p_op (((((T_0F3A ||| T_66) ||| T_W1) ||| T_EVEX) ||| T_EW1) ||| T_N8) 0x16 p_imm).
(* xbyak_mnemonic.h:1439 *)
Definition i_vpextrw (p_op : Operand) (p_x : Reg) (p_imm : Z) : E unit :=
  fn tt (let p_imm := w8 p_imm in if (negb (((isREGb (ob p_op) (16 ||| i32e)) || (isMEM p_op)) && (isXMM p_x))) then throw ERR_BAD_COMBINATION else (if ((isREG (ob p_op)) && ((getIdx p_x) <? 16)) then opAVX_X_X_XM (Xmm (getIdx (ob p_op))) (OReg (Xmm 0)) (OReg p_x) (T_0F ||| T_66) 0xC5 p_imm else opVex p_x None p_op (((T_0F3A ||| T_66) ||| T_EVEX) ||| T_N2) 0x15 p_imm)).
(* xbyak_mnemonic.h:1440 *)
Definition i_vpgatherdd_xax (p_x1 : Reg) (p_addr : Address) (p_x2 : Reg) : E unit :=
  opGather p_x1 p_addr p_x2 ((((T_0F38 ||| T_66) ||| T_YMM) ||| T_VSIB) ||| T_W0) 0x90 1.
(* xbyak_mnemonic.h:1441 *)
Definition i_vpgatherdq_xax (p_x1 : Reg) (p_addr : Address) (p_x2 : Reg) : E unit :=
  opGather p_x1 p_addr p_x2 ((((T_0F38 ||| T_66) ||| T_YMM) ||| T_VSIB) ||| T_W1) 0x90 0.
(* xbyak_mnemonic.h:1442 *)
Definition i_vpgatherqd_xax (p_x1 : Reg) (p_addr : Address) (p_x2 : Reg) : E unit :=
  opGather p_x1 p_addr p_x2 ((((T_0F38 ||| T_66) ||| T_YMM) ||| T_VSIB) ||| T_W0) 0x91 2.
(* xbyak_mnemonic.h:1443 *)
Definition i_vpgatherqq_xax (p_x1 : Reg) (p_addr : Address) (p_x2 : Reg) : E unit :=
  opGather p_x1 p_addr p_x2 ((((T_0F38 ||| T_66) ||| T_YMM) ||| T_VSIB) ||| T_W1) 0x91 1.
(* xbyak_mnemonic.h:1444 *)
Definition i_vphaddd_xxo (p_x1 : Reg) (p_x2 : Reg) (p_op : Operand) : E unit :=
  opAVX_X_X_XM p_x1 (OReg p_x2) p_op ((T_66 ||| T_0F38) ||| T_YMM) 0x02 NONE.
(* xbyak_mnemonic.h:1445 *)
Definition i_vphaddsw_xxo (p_x1 : Reg) (p_x2 : Reg) (p_op : Operand) : E unit :=
  opAVX_X_X_XM p_x1 (OReg p_x2) p_op ((T_66 ||| T_0F38) ||| T_YMM) 0x03 NONE.
(* xbyak_mnemonic.h:1446 *)
Definition i_vphaddw_xxo (p_x1 : Reg) (p_x2 : Reg) (p_op : Operand) : E unit :=
  opAVX_X_X_XM p_x1 (OReg p_x2) p_op ((T_66 ||| T_0F38) ||| T_YMM) 0x01 NONE.
(* xbyak_mnemonic.h:1447 *)
Definition i_vphminposuw (p_xm : Reg) (p_op : Operand) : E unit :=
  opAVX_X_XM_IMM p_xm p_op (T_66 ||| T_0F38) 0x41 NONE.
(* xbyak_mnemonic.h:1448 *)
Definition i_vphsubd_xxo (p_x1 : Reg) (p_x2 : Reg) (p_op : Operand) : E unit :=
  opAVX_X_X_XM p_x1 (OReg p_x2) p_op ((T_66 ||| T_0F38) ||| T_YMM) 0x06 NONE.
(* xbyak_mnemonic.h:1449 *)
Definition i_vphsubsw_xxo (p_x1 : Reg) (p_x2 : Reg) (p_op : Operand) : E unit :=
  opAVX_X_X_XM p_x1 (OReg p_x2) p_op ((T_66 ||| T_0F38) ||| T_YMM) 0x07 NONE.
(* xbyak_mnemonic.h:1450 *)
Definition i_vphsubw_xxo (p_x1 : Reg) (p_x2 : Reg) (p_op : Operand) : E unit :=
  opAVX_X_X_XM p_x1 (OReg p_x2) p_op ((T_66 ||| T_0F38) ||| T_YMM) 0x05 NONE.
(* xbyak_mnemonic.h:1451 *)
Definition i_vpinsrb_xxoi (p_x1 : Reg) (p_x2 : Reg) (p_op : Operand) (p_imm : Z) : E unit :=
  fn tt (let p_imm := w8 p_imm in if (negb (((isXMM p_x1) && (isXMM p_x2)) && ((isREGb (ob p_op) 32) || (isMEM p_op)))) then throw ERR_BAD_COMBINATION else opVex p_x1 (Some p_x2) p_op (((T_0F3A ||| T_66) ||| T_EVEX) ||| T_N1) 0x20 p_imm).
(* xbyak_mnemonic.h:1452 *)
Definition i_vpinsrd_xxoi (p_x1 : Reg) (p_x2 : Reg) (p_op : Operand) (p_imm : Z) : E unit :=
  fn tt (let p_imm := w8 p_imm in if (negb (((isXMM p_x1) && (isXMM p_x2)) && ((isREGb (ob p_op) 32) || (isMEM p_op)))) then throw ERR_BAD_COMBINATION else opVex p_x1 (Some p_x2) p_op (((((T_0F3A ||| T_66) ||| T_W0) ||| T_EVEX) ||| T_EW0) ||| T_N4) 0x22 p_imm).
(* xbyak_mnemonic.h:1453 *)
Definition i_vpinsrq_xxoi (p_x1 : Reg) (p_x2 : Reg) (p_op : Operand) (p_imm : Z) : E unit :=
  fn tt (let p_imm := w8 p_imm in if (negb (((isXMM p_x1) && (isXMM p_x2)) && ((isREGb (ob p_op) 64) || (isMEM p_op)))) then throw ERR_BAD_COMBINATION else opVex p_x1 (Some p_x2) p_op (((((T_0F3A ||| T_66) ||| T_W1) ||| T_EVEX) ||| T_EW1) ||| T_N8) 0x22 p_imm).
(* xbyak_mnemonic.h:1454 *)
Definition i_vpinsrw_xxoi (p_x1 : Reg) (p_x2 : Reg) (p_op : Operand) (p_imm : Z) : E unit :=
  fn tt (let p_imm := w8 p_imm in if (negb (((isXMM p_x1) && (isXMM p_x2)) && ((isREGb (ob p_op) 32) || (isMEM p_op)))) then throw ERR_BAD_COMBINATION else opVex p_x1 (Some p_x2) p_op (((T_0F ||| T_66) ||| T_EVEX) ||| T_N2) 0xC4 p_imm).
(* xbyak_mnemonic.h:1455 *)
Definition i_vpmaddubsw_xxo (p_x1 : Reg) (p_x2 : Reg) (p_op : Operand) : E unit :=
  opAVX_X_X_XM p_x1 (OReg p_x2) p_op (((T_66 ||| T_0F38) ||| T_YMM) ||| T_EVEX) 0x04 NONE.
(* xbyak_mnemonic.h:1456 *)
Definition i_vpmaddwd_xxo (p_x1 : Reg) (p_x2 : Reg) (p_op : Operand) : E unit :=
  opAVX_X_X_XM p_x1 (OReg p_x2) p_op (((T_66 ||| T_0F) ||| T_YMM) ||| T_EVEX) 0xF5 NONE.
(* xbyak_mnemonic.h:1457 *)
Definition i_vpmaskmovd_axx (p_addr : Address) (p_x1 : Reg) (p_x2 : Reg) : E unit :=
  opAVX_X_X_XM p_x2 (OReg p_x1) (OMem p_addr) (((T_0F38 ||| T_66) ||| T_W0) ||| T_YMM) 0x8E NONE.
(* xbyak_mnemonic.h:1458 *)
Definition i_vpmaskmovd_xxa (p_x1 : Reg) (p_x2 : Reg) (p_addr : Address) : E unit :=
  opAVX_X_X_XM p_x1 (OReg p_x2) (OMem p_addr) (((T_0F38 ||| T_66) ||| T_W0) ||| T_YMM) 0x8C NONE.
(* xbyak_mnemonic.h:1459 *)
Definition i_vpmaskmovq_axx (p_addr : Address) (p_x1 : Reg) (p_x2 : Reg) : E unit :=
  opAVX_X_X_XM p_x2 (OReg p_x1) (OMem p_addr) (((T_0F38 ||| T_66) ||| T_W1) ||| T_YMM) 0x8E NONE.
(* xbyak_mnemonic.h:1460 *)
Definition i_vpmaskmovq_xxa (p_x1 : Reg) (p_x2 : Reg) (p_addr : Address) : E unit :=
  opAVX_X_X_XM p_x1 (OReg p_x2) (OMem p_addr) (((T_0F38 ||| T_66) ||| T_W1) ||| T_YMM) 0x8C NONE.
(* xbyak_mnemonic.h:1461 *)
Definition i_vpmaxsb_xxo (p_x1 : Reg) (p_x2 : Reg) (p_op : Operand) : E unit :=
  opAVX_X_X_XM p_x1 (OReg p_x2) p_op (((T_66 ||| T_0F38) ||| T_YMM) ||| T_EVEX) 0x3C NONE.
(* xbyak_mnemonic.h:1462 *)
Definition i_vpmaxsd_xxo (p_x1 : Reg) (p_x2 : Reg) (p_op : Operand) : E unit :=
  opAVX_X_X_XM p_x1 (OReg p_x2) p_op (((((T_66 ||| T_0F38) ||| T_EW0) ||| T_YMM) ||| T_EVEX) ||| T_B32) 0x3D NONE.
(* xbyak_mnemonic.h:1463 *)
Definition i_vpmaxsw_xxo (p_x1 : Reg) (p_x2 : Reg) (p_op : Operand) : E unit :=
  opAVX_X_X_XM p_x1 (OReg p_x2) p_op (((T_66 ||| T_0F) ||| T_YMM) ||| T_EVEX) 0xEE NONE.
(* xbyak_mnemonic.h:1464 *)
Definition i_vpmaxub_xxo (p_x1 : Reg) (p_x2 : Reg) (p_op : Operand) : E unit :=
  opAVX_X_X_XM p_x1 (OReg p_x2) p_op (((T_66 ||| T_0F) ||| T_YMM) ||| T_EVEX) 0xDE NONE.
(* xbyak_mnemonic.h:1465 *)
Definition i_vpmaxud_xxo (p_x1 : Reg) (p_x2 : Reg) (p_op : Operand) : E unit :=
  opAVX_X_X_XM p_x1 (OReg p_x2) p_op (((((T_66 ||| T_0F38) ||| T_EW0) ||| T_YMM) ||| T_EVEX) ||| T_B32) 0x3F NONE.
(* xbyak_mnemonic.h:1466 *)
Definition i_vpmaxuw_xxo (p_x1 : Reg) (p_x2 : Reg) (p_op : Operand) : E unit :=
  opAVX_X_X_XM p_x1 (OReg p_x2) p_op (((T_66 ||| T_0F38) ||| T_YMM) ||| T_EVEX) 0x3E NONE.
(* xbyak_mnemonic.h:1467 *)
Definition i_vpminsb_xxo (p_x1 : Reg) (p_x2 : Reg) (p_op : Operand) : E unit :=
  opAVX_X_X_XM p_x1 (OReg p_x2) p_op (((T_66 ||| T_0F38) ||| T_YMM) ||| T_EVEX) 0x38 NONE.
(* xbyak_mnemonic.h:1468 *)
Definition i_vpminsd_xxo (p_x1 : Reg) (p_x2 : Reg) (p_op : Operand) : E unit :=
  opAVX_X_X_XM p_x1 (OReg p_x2) p_op (((((T_66 ||| T_0F38) ||| T_EW0) ||| T_YMM) ||| T_EVEX) ||| T_B32) 0x39 NONE.
(* xbyak_mnemonic.h:1469 *)
Definition i_vpminsw_xxo (p_x1 : Reg) (p_x2 : Reg) (p_op : Operand) : E unit :=
  opAVX_X_X_XM p_x1 (OReg p_x2) p_op (((T_66 ||| T_0F) ||| T_YMM) ||| T_EVEX) 0xEA NONE.
(* xbyak_mnemonic.h:1470 *)
Definition i_vpminub_xxo (p_x1 : Reg) (p_x2 : Reg) (p_op : Operand) : E unit :=
  opAVX_X_X_XM p_x1 (OReg p_x2) p_op (((T_66 ||| T_0F) ||| T_YMM) ||| T_EVEX) 0xDA NONE.
(* xbyak_mnemonic.h:1471 *)
Definition i_vpminud_xxo (p_x1 : Reg) (p_x2 : Reg) (p_op : Operand) : E unit :=
  opAVX_X_X_XM p_x1 (OReg p_x2) p_op (((((T_66 ||| T_0F38) ||| T_EW0) ||| T_YMM) ||| T_EVEX) ||| T_B32) 0x3B NONE.
(* xbyak_mnemonic.h:1472 *)
Definition i_vpminuw_xxo (p_x1 : Reg) (p_x2 : Reg) (p_op : Operand) : E unit :=
  opAVX_X_X_XM p_x1 (OReg p_x2) p_op (((T_66 ||| T_0F38) ||| T_YMM) ||| T_EVEX) 0x3A NONE.
(* xbyak_mnemonic.h:1473 *)
Definition i_vpmovmskb (p_r : Reg) (p_x : Reg) : E unit :=
  fn tt (if (negb (is_ p_x (XMM ||| YMM) 0)) then throw ERR_BAD_COMBINATION else opVex (if (isYMM p_x) then (Ymm (getIdx p_r)) else (Xmm (getIdx p_r))) None (OReg p_x) ((T_0F ||| T_66) ||| T_YMM) 0xD7 NONE).
(* xbyak_mnemonic.h:1474 *)
Definition i_vpmovsxbd (p_xm : Reg) (p_op : Operand) : E unit :=
  opAVX_X_XM_IMM p_xm p_op (((((T_N4 ||| T_N_VL) ||| T_66) ||| T_0F38) ||| T_YMM) ||| T_EVEX) 0x21 NONE.
(* xbyak_mnemonic.h:1475 *)
Definition i_vpmovsxbq (p_xm : Reg) (p_op : Operand) : E unit :=
  opAVX_X_XM_IMM p_xm p_op (((((T_N2 ||| T_N_VL) ||| T_66) ||| T_0F38) ||| T_YMM) ||| T_EVEX) 0x22 NONE.
(* xbyak_mnemonic.h:1476 *)
Definition i_vpmovsxbw (p_xm : Reg) (p_op : Operand) : E unit :=
  opAVX_X_XM_IMM p_xm p_op (((((T_N8 ||| T_N_VL) ||| T_66) ||| T_0F38) ||| T_YMM) ||| T_EVEX) 0x20 NONE.
(* xbyak_mnemonic.h:1477 *)
Definition i_vpmovsxdq (p_xm : Reg) (p_op : Operand) : E unit :=
  opAVX_X_XM_IMM p_xm p_op ((((((T_N8 ||| T_N_VL) ||| T_66) ||| T_0F38) ||| T_EW0) ||| T_YMM) ||| T_EVEX) 0x25 NONE.
(* xbyak_mnemonic.h:1478 *)
Definition i_vpmovsxwd (p_xm : Reg) (p_op : Operand) : E unit :=
  opAVX_X_XM_IMM p_xm p_op (((((T_N8 ||| T_N_VL) ||| T_66) ||| T_0F38) ||| T_YMM) ||| T_EVEX) 0x23 NONE.
(* xbyak_mnemonic.h:1479 *)
Definition i_vpmovsxwq (p_xm : Reg) (p_op : Operand) : E unit :=
  opAVX_X_XM_IMM p_xm p_op (((((T_N4 ||| T_N_VL) ||| T_66) ||| T_0F38) ||| T_YMM) ||| T_EVEX) 0x24 NONE.
(* xbyak_mnemonic.h:1480 *)
Definition i_vpmovzxbd (p_xm : Reg) (p_op : Operand) : E unit :=
  opAVX_X_XM_IMM p_xm p_op (((((T_N4 ||| T_N_VL) ||| T_66) ||| T_0F38) ||| T_YMM) ||| T_EVEX) 0x31 NONE.
(* xbyak_mnemonic.h:1481 *)
Definition i_vpmovzxbq (p_xm : Reg) (p_op : Operand) : E unit :=
  opAVX_X_XM_IMM p_xm p_op (((((T_N2 ||| T_N_VL) ||| T_66) ||| T_0F38) ||| T_YMM) ||| T_EVEX) 0x32 NONE.
(* xbyak_mnemonic.h:1482 *)
Definition i_vpmovzxbw (p_xm : Reg) (p_op : Operand) : E unit :=
  opAVX_X_XM_IMM p_xm p_op (((((T_N8 ||| T_N_VL) ||| T_66) ||| T_0F38) ||| T_YMM) ||| T_EVEX) 0x30 NONE.
(* xbyak_mnemonic.h:1483 *)
Definition i_vpmovzxdq (p_xm : Reg) (p_op : Operand) : E unit :=
  opAVX_X_XM_IMM p_xm p_op ((((((T_N8 ||| T_N_VL) ||| T_66) ||| T_0F38) ||| T_EW0) ||| T_YMM) ||| T_EVEX) 0x35 NONE.
(* xbyak_mnemonic.h:1484 *)
Definition i_vpmovzxwd (p_xm : Reg) (p_op : Operand) : E unit :=
  opAVX_X_XM_IMM p_xm p_op (((((T_N8 ||| T_N_VL) ||| T_66) ||| T_0F38) ||| T_YMM) ||| T_EVEX) 0x33 NONE.
(* xbyak_mnemonic.h:1485 *)
Definition i_vpmovzxwq (p_xm : Reg) (p_op : Operand) : E unit :=
  opAVX_X_XM_IMM p_xm p_op (((((T_N4 ||| T_N_VL) ||| T_66) ||| T_0F38) ||| T_YMM) ||| T_EVEX) 0x34 NONE.
(* xbyak_mnemonic.h:1486 *)
Definition i_vpmuldq_xxo (p_x1 : Reg) (p_x2 : Reg) (p_op : Operand) : E unit :=
  opAVX_X_X_XM p_x1 (OReg p_x2) p_op (((((T_66 ||| T_0F38) ||| T_EW1) ||| T_YMM) ||| T_EVEX) ||| T_B64) 0x28 NONE.
(* xbyak_mnemonic.h:1487 *)
Definition i_vpmulhrsw_xxo (p_x1 : Reg) (p_x2 : Reg) (p_op : Operand) : E unit :=
  opAVX_X_X_XM p_x1 (OReg p_x2) p_op (((T_66 ||| T_0F38) ||| T_YMM) ||| T_EVEX) 0x0B NONE.
(* xbyak_mnemonic.h:1488 *)
Definition i_vpmulhuw_xxo (p_x1 : Reg) (p_x2 : Reg) (p_op : Operand) : E unit :=
  opAVX_X_X_XM p_x1 (OReg p_x2) p_op (((T_66 ||| T_0F) ||| T_YMM) ||| T_EVEX) 0xE4 NONE.
(* xbyak_mnemonic.h:1489 *)
Definition i_vpmulhw_xxo (p_x1 : Reg) (p_x2 : Reg) (p_op : Operand) : E unit :=
  opAVX_X_X_XM p_x1 (OReg p_x2) p_op (((T_66 ||| T_0F) ||| T_YMM) ||| T_EVEX) 0xE5 NONE.
(* xbyak_mnemonic.h:1490 *)
Definition i_vpmulld_xxo (p_x1 : Reg) (p_x2 : Reg) (p_op : Operand) : E unit :=
  opAVX_X_X_XM p_x1 (OReg p_x2) p_op (((((T_66 ||| T_0F38) ||| T_EW0) ||| T_YMM) ||| T_EVEX) ||| T_B32) 0x40 NONE.
(* xbyak_mnemonic.h:1491 *)
Definition i_vpmullw_xxo (p_x1 : Reg) (p_x2 : Reg) (p_op : Operand) : E unit :=
  opAVX_X_X_XM p_x1 (OReg p_x2) p_op (((T_66 ||| T_0F) ||| T_YMM) ||| T_EVEX) 0xD5 NONE.
(* xbyak_mnemonic.h:1492 *)
Definition i_vpmuludq_xxo (p_x1 : Reg) (p_x2 : Reg) (p_op : Operand) : E unit :=
  opAVX_X_X_XM p_x1 (OReg p_x2) p_op (((((T_66 ||| T_0F) ||| T_EW1) ||| T_YMM) ||| T_EVEX) ||| T_B64) 0xF4 NONE.
(* xbyak_mnemonic.h:1493 *)
Definition i_vpor_xxo (p_x1 : Reg) (p_x2 : Reg) (p_op : Operand) : E unit :=
  opAVX_X_X_XM p_x1 (OReg p_x2) p_op ((T_66 ||| T_0F) ||| T_YMM) 0xEB NONE.
(* xbyak_mnemonic.h:1494 *)
Definition i_vpsadbw_xxo (p_x1 : Reg) (p_x2 : Reg) (p_op : Operand) : E unit :=
  opAVX_X_X_XM p_x1 (OReg p_x2) p_op (((T_66 ||| T_0F) ||| T_YMM) ||| T_EVEX) 0xF6 NONE.
(* xbyak_mnemonic.h:1495 *)
Definition i_vpshufb (p_x1 : Reg) (p_x2 : Reg) (p_op : Operand) : E unit :=
  opAVX_X_X_XM p_x1 (OReg p_x2) p_op (((T_66 ||| T_0F38) ||| T_YMM) ||| T_EVEX) 0x00 NONE.
(* xbyak_mnemonic.h:1496 *)
Definition i_vpshufd (p_xm : Reg) (p_op : Operand) (p_imm : Z) : E unit :=
  let p_imm := w8 p_imm in opAVX_X_XM_IMM p_xm p_op (((((T_66 ||| T_0F) ||| T_EW0) ||| T_YMM) ||| T_EVEX) ||| T_B32) 0x70 p_imm.
(* xbyak_mnemonic.h:1497 *)
Definition i_vpshufhw (p_xm : Reg) (p_op : Operand) (p_imm : Z) : E unit :=
  let p_imm := w8 p_imm in opAVX_X_XM_IMM p_xm p_op (((T_F3 ||| T_0F) ||| T_YMM) ||| T_EVEX) 0x70 p_imm.
(* xbyak_mnemonic.h:1498 *)
Definition i_vpshuflw (p_xm : Reg) (p_op : Operand) (p_imm : Z) : E unit :=
  let p_imm := w8 p_imm in opAVX_X_XM_IMM p_xm p_op (((T_F2 ||| T_0F) ||| T_YMM) ||| T_EVEX) 0x70 p_imm.
(* xbyak_mnemonic.h:1499 *)
Definition i_vpsignb_xxo (p_x1 : Reg) (p_x2 : Reg) (p_op : Operand) : E unit :=
  opAVX_X_X_XM p_x1 (OReg p_x2) p_op ((T_66 ||| T_0F38) ||| T_YMM) 0x08 NONE.
(* xbyak_mnemonic.h:1500 *)
Definition i_vpsignd_xxo (p_x1 : Reg) (p_x2 : Reg) (p_op : Operand) : E unit :=
  opAVX_X_X_XM p_x1 (OReg p_x2) p_op ((T_66 ||| T_0F38) ||| T_YMM) 0x0A NONE.
(* xbyak_mnemonic.h:1501 *)
Definition i_vpsignw_xxo (p_x1 : Reg) (p_x2 : Reg) (p_op : Operand) : E unit :=
  opAVX_X_X_XM p_x1 (OReg p_x2) p_op ((T_66 ||| T_0F38) ||| T_YMM) 0x09 NONE.
(* xbyak_mnemonic.h:1502 *)
Definition i_vpslld_xoi (p_x : Reg) (p_op : Operand) (p_imm : Z) : E unit :=
  let p_imm := w8 p_imm in opAVX_X_X_XM (XmmK (kind_ p_x) 6) (OReg p_x) p_op ((((((T_66 ||| T_0F) ||| T_EW0) ||| T_YMM) ||| T_EVEX) ||| T_B32) ||| T_MEM_EVEX) 0x72 p_imm.
(* xbyak_mnemonic.h:1503 *)
Definition i_vpslld_xxo (p_x1 : Reg) (p_x2 : Reg) (p_op : Operand) : E unit :=
  opAVX_X_X_XM p_x1 (OReg p_x2) p_op (((((T_N16 ||| T_66) ||| T_0F) ||| T_EW0) ||| T_YMM) ||| T_EVEX) 0xF2 NONE.
(* xbyak_mnemonic.h:1504 *)
Definition i_vpslldq_xoi (p_x : Reg) (p_op : Operand) (p_imm : Z) : E unit :=
  let p_imm := w8 p_imm in opAVX_X_X_XM (XmmK (kind_ p_x) 7) (OReg p_x) p_op ((((T_66 ||| T_0F) ||| T_YMM) ||| T_EVEX) ||| T_MEM_EVEX) 0x73 p_imm.
(* xbyak_mnemonic.h:1505 *)
Definition i_vpsllq_xoi (p_x : Reg) (p_op : Operand) (p_imm : Z) : E unit :=
  let p_imm := w8 p_imm in opAVX_X_X_XM (XmmK (kind_ p_x) 6) (OReg p_x) p_op ((((((T_66 ||| T_0F) ||| T_EW1) ||| T_YMM) ||| T_EVEX) ||| T_B64) ||| T_MEM_EVEX) 0x73 p_imm.
(* xbyak_mnemonic.h:1506 *)
Definition i_vpsllq_xxo (p_x1 : Reg) (p_x2 : Reg) (p_op : Operand) : E unit :=
  opAVX_X_X_XM p_x1 (OReg p_x2) p_op (((((T_N16 ||| T_66) ||| T_0F) ||| T_EW1) ||| T_YMM) ||| T_EVEX) 0xF3 NONE.
(* xbyak_mnemonic.h:1507 *)
Definition i_vpsllvd (p_x1 : Reg) (p_x2 : Reg) (p_op : Operand) : E unit :=
  opAVX_X_X_XM p_x1 (OReg p_x2) p_op ((((((T_66 ||| T_0F38) ||| T_W0) ||| T_EW0) ||| T_YMM) ||| T_EVEX) ||| T_B32) 0x47 NONE.
(* xbyak_mnemonic.h:1508 *)
Definition i_vpsllvq (p_x1 : Reg) (p_x2 : Reg) (p_op : Operand) : E unit :=
  opAVX_X_X_XM p_x1 (OReg p_x2) p_op ((((((T_66 ||| T_0F38) ||| T_W1) ||| T_EW1) ||| T_YMM) ||| T_EVEX) ||| T_B64) 0x47 NONE.
(* xbyak_mnemonic.h:1509 *)
Definition i_vpsllw_xoi (p_x : Reg) (p_op : Operand) (p_imm : Z) : E unit :=
  let p_imm := w8 p_imm in opAVX_X_X_XM (XmmK (kind_ p_x) 6) (OReg p_x) p_op ((((T_66 ||| T_0F) ||| T_YMM) ||| T_EVEX) ||| T_MEM_EVEX) 0x71 p_imm.
(* xbyak_mnemonic.h:1510 *)
Definition i_vpsllw_xxo (p_x1 : Reg) (p_x2 : Reg) (p_op : Operand) : E unit :=
  opAVX_X_X_XM p_x1 (OReg p_x2) p_op ((((T_N16 ||| T_66) ||| T_0F) ||| T_YMM) ||| T_EVEX) 0xF1 NONE.
(* xbyak_mnemonic.h:1511 *)
Definition i_vpsrad_xoi (p_x : Reg) (p_op : Operand) (p_imm : Z) : E unit :=
  let p_imm := w8 p_imm in opAVX_X_X_XM (XmmK (kind_ p_x) 4) (OReg p_x) p_op ((((((T_66 ||| T_0F) ||| T_EW0) ||| T_YMM) ||| T_EVEX) ||| T_B32) ||| T_MEM_EVEX) 0x72 p_imm.
(* xbyak_mnemonic.h:1512 *)
Definition i_vpsrad_xxo (p_x1 : Reg) (p_x2 : Reg) (p_op : Operand) : E unit :=
  opAVX_X_X_XM p_x1 (OReg p_x2) p_op (((((T_N16 ||| T_66) ||| T_0F) ||| T_EW0) ||| T_YMM) ||| T_EVEX) 0xE2 NONE.
(* xbyak_mnemonic.h:1513 *)
Definition i_vpsravd (p_x1 : Reg) (p_x2 : Reg) (p_op : Operand) : E unit :=
  opAVX_X_X_XM p_x1 (OReg p_x2) p_op ((((((T_66 ||| T_0F38) ||| T_W0) ||| T_EW0) ||| T_YMM) ||| T_EVEX) ||| T_B32) 0x46 NONE.
(* xbyak_mnemonic.h:1514 *)
Definition i_vpsraw_xoi (p_x : Reg) (p_op : Operand) (p_imm : Z) : E unit :=
  let p_imm := w8 p_imm in opAVX_X_X_XM (XmmK (kind_ p_x) 4) (OReg p_x) p_op ((((T_66 ||| T_0F) ||| T_YMM) ||| T_EVEX) ||| T_MEM_EVEX) 0x71 p_imm.
(* xbyak_mnemonic.h:1515 *)
Definition i_vpsraw_xxo (p_x1 : Reg) (p_x2 : Reg) (p_op : Operand) : E unit :=
  opAVX_X_X_XM p_x1 (OReg p_x2) p_op ((((T_N16 ||| T_66) ||| T_0F) ||| T_YMM) ||| T_EVEX) 0xE1 NONE.
(* xbyak_mnemonic.h:1516 *)
Definition i_vpsrld_xoi (p_x : Reg) (p_op : Operand) (p_imm : Z) : E unit :=
  let p_imm := w8 p_imm in opAVX_X_X_XM (XmmK (kind_ p_x) 2) (OReg p_x) p_op ((((((T_66 ||| T_0F) ||| T_EW0) ||| T_YMM) ||| T_EVEX) ||| T_B32) ||| T_MEM_EVEX) 0x72 p_imm.
(* xbyak_mnemonic.h:1517 *)
Definition i_vpsrld_xxo (p_x1 : Reg) (p_x2 : Reg) (p_op : Operand) : E unit :=
  opAVX_X_X_XM p_x1 (OReg p_x2) p_op (((((T_N16 ||| T_66) ||| T_0F) ||| T_EW0) ||| T_YMM) ||| T_EVEX) 0xD2 NONE.
(* xbyak_mnemonic.h:1518 *)
Definition i_vpsrldq_xoi (p_x : Reg) (p_op : Operand) (p_imm : Z) : E unit :=
  let p_imm := w8 p_imm in opAVX_X_X_XM (XmmK (kind_ p_x) 3) (OReg p_x) p_op ((((T_66 ||| T_0F) ||| T_YMM) ||| T_EVEX) ||| T_MEM_EVEX) 0x73 p_imm.
(* xbyak_mnemonic.h:1519 *)
Definition i_vpsrlq_xoi (p_x : Reg) (p_op : Operand) (p_imm : Z) : E unit :=
  let p_imm := w8 p_imm in opAVX_X_X_XM (XmmK (kind_ p_x) 2) (OReg p_x) p_op ((((((T_66 ||| T_0F) ||| T_EW1) ||| T_YMM) ||| T_EVEX) ||| T_B64) ||| T_MEM_EVEX) 0x73 p_imm.
(* xbyak_mnemonic.h:1520 *)
Definition i_vpsrlq_xxo (p_x1 : Reg) (p_x2 : Reg) (p_op : Operand) : E unit :=
  opAVX_X_X_XM p_x1 (OReg p_x2) p_op (((((T_N16 ||| T_66) ||| T_0F) ||| T_EW1) ||| T_YMM) ||| T_EVEX) 0xD3 NONE.
(* xbyak_mnemonic.h:1521 *)
Definition i_vpsrlvd (p_x1 : Reg) (p_x2 : Reg) (p_op : Operand) : E unit :=
  opAVX_X_X_XM p_x1 (OReg p_x2) p_op ((((((T_66 ||| T_0F38) ||| T_W0) ||| T_EW0) ||| T_YMM) ||| T_EVEX) ||| T_B32) 0x45 NONE.
(* xbyak_mnemonic.h:1522 *)
Definition i_vpsrlvq (p_x1 : Reg) (p_x2 : Reg) (p_op : Operand) : E unit :=
  opAVX_X_X_XM p_x1 (OReg p_x2) p_op ((((((T_66 ||| T_0F38) ||| T_W1) ||| T_EW1) ||| T_YMM) ||| T_EVEX) ||| T_B64) 0x45 NONE.
(* xbyak_mnemonic.h:1523 *)
Definition i_vpsrlw_xoi (p_x : Reg) (p_op : Operand) (p_imm : Z) : E unit :=
  let p_imm := w8 p_imm in opAVX_X_X_XM (XmmK (kind_ p_x) 2) (OReg p_x) p_op ((((T_66 ||| T_0F) ||| T_YMM) ||| T_EVEX) ||| T_MEM_EVEX) 0x71 p_imm.
(* xbyak_mnemonic.h:1524 *)
Definition i_vpsrlw_xxo (p_x1 : Reg) (p_x2 : Reg) (p_op : Operand) : E unit :=
  opAVX_X_X_XM p_x1 (OReg p_x2) p_op ((((T_N16 ||| T_66) ||| T_0F) ||| T_YMM) ||| T_EVEX) 0xD1 NONE.
(* xbyak_mnemonic.h:1525 *)
Definition i_vpsubb_xxo (p_x1 : Reg) (p_x2 : Reg) (p_op : Operand) : E unit :=
  opAVX_X_X_XM p_x1 (OReg p_x2) p_op (((T_66 ||| T_0F) ||| T_YMM) ||| T_EVEX) 0xF8 NONE.
(* xbyak_mnemonic.h:1526 *)
Definition i_vpsubd_xxo (p_x1 : Reg) (p_x2 : Reg) (p_op : Operand) : E unit :=
  opAVX_X_X_XM p_x1 (OReg p_x2) p_op (((((T_66 ||| T_0F) ||| T_EW0) ||| T_YMM) ||| T_EVEX) ||| T_B32) 0xFA NONE.
(* xbyak_mnemonic.h:1527 *)
Definition i_vpsubq_xxo (p_x1 : Reg) (p_x2 : Reg) (p_op : Operand) : E unit :=
  opAVX_X_X_XM p_x1 (OReg p_x2) p_op (((((T_66 ||| T_0F) ||| T_EW1) ||| T_YMM) ||| T_EVEX) ||| T_B64) 0xFB NONE.
(* xbyak_mnemonic.h:1528 *)
Definition i_vpsubsb_xxo (p_x1 : Reg) (p_x2 : Reg) (p_op : Operand) : E unit :=
  opAVX_X_X_XM p_x1 (OReg p_x2) p_op (((T_66 ||| T_0F) ||| T_YMM) ||| T_EVEX) 0xE8 NONE.
(* xbyak_mnemonic.h:1529 *)
Definition i_vpsubsw_xxo (p_x1 : Reg) (p_x2 : Reg) (p_op : Operand) : E unit :=
  opAVX_X_X_XM p_x1 (OReg p_x2) p_op (((T_66 ||| T_0F) ||| T_YMM) ||| T_EVEX) 0xE9 NONE.
(* xbyak_mnemonic.h:1530 *)
Definition i_vpsubusb_xxo (p_x1 : Reg) (p_x2 : Reg) (p_op : Operand) : E unit :=
  opAVX_X_X_XM p_x1 (OReg p_x2) p_op (((T_66 ||| T_0F) ||| T_YMM) ||| T_EVEX) 0xD8 NONE.
(* xbyak_mnemonic.h:1531 *)
Definition i_vpsubusw_xxo (p_x1 : Reg) (p_x2 : Reg) (p_op : Operand) : E unit :=
  opAVX_X_X_XM p_x1 (OReg p_x2) p_op (((T_66 ||| T_0F) ||| T_YMM) ||| T_EVEX) 0xD9 NONE.
(* xbyak_mnemonic.h:1532 *)
Definition i_vpsubw_xxo (p_x1 : Reg) (p_x2 : Reg) (p_op : Operand) : E unit :=
  opAVX_X_X_XM p_x1 (OReg p_x2) p_op (((T_66 ||| T_0F) ||| T_YMM) ||| T_EVEX) 0xF9 NONE.
(* xbyak_mnemonic.h:1533 *)
Definition i_vptest (p_xm : Reg) (p_op : Operand) : E unit :=
  opAVX_X_XM_IMM p_xm p_op ((T_66 ||| T_0F38) ||| T_YMM) 0x17 NONE.
(* xbyak_mnemonic.h:1534 *)
Definition i_vpunpckhbw_xxo (p_x1 : Reg) (p_x2 : Reg) (p_op : Operand) : E unit :=
  opAVX_X_X_XM p_x1 (OReg p_x2) p_op (((T_66 ||| T_0F) ||| T_YMM) ||| T_EVEX) 0x68 NONE.
(* xbyak_mnemonic.h:1535 *)
Definition i_vpunpckhdq_xxo (p_x1 : Reg) (p_x2 : Reg) (p_op : Operand) : E unit :=
  opAVX_X_X_XM p_x1 (OReg p_x2) p_op (((((T_66 ||| T_0F) ||| T_EW0) ||| T_YMM) ||| T_EVEX) ||| T_B32) 0x6A NONE.
(* xbyak_mnemonic.h:1536 *)
Definition i_vpunpckhqdq_xxo (p_x1 : Reg) (p_x2 : Reg) (p_op : Operand) : E unit :=
  opAVX_X_X_XM p_x1 (OReg p_x2) p_op (((((T_66 ||| T_0F) ||| T_EW1) ||| T_YMM) ||| T_EVEX) ||| T_B64) 0x6D NONE.
(* xbyak_mnemonic.h:1537 *)
Definition i_vpunpckhwd_xxo (p_x1 : Reg) (p_x2 : Reg) (p_op : Operand) : E unit :=
  opAVX_X_X_XM p_x1 (OReg p_x2) p_op (((T_66 ||| T_0F) ||| T_YMM) ||| T_EVEX) 0x69 NONE.
(* xbyak_mnemonic.h:1538 *)
Definition i_vpunpcklbw_xxo (p_x1 : Reg) (p_x2 : Reg) (p_op : Operand) : E unit :=
  opAVX_X_X_XM p_x1 (OReg p_x2) p_op (((T_66 ||| T_0F) ||| T_YMM) ||| T_EVEX) 0x60 NONE.
(* xbyak_mnemonic.h:1539 *)
Definition i_vpunpckldq_xxo (p_x1 : Reg) (p_x2 : Reg) (p_op : Operand) : E unit :=
  opAVX_X_X_XM p_x1 (OReg p_x2) p_op (((((T_66 ||| T_0F) ||| T_EW0) ||| T_YMM) ||| T_EVEX) ||| T_B32) 0x62 NONE.
(* xbyak_mnemonic.h:1540 *)
Definition i_vpunpcklqdq_xxo (p_x1 : Reg) (p_x2 : Reg) (p_op : Operand) : E unit :=
  opAVX_X_X_XM p_x1 (OReg p_x2) p_op (((((T_66 ||| T_0F) ||| T_EW1) ||| T_YMM) ||| T_EVEX) ||| T_B64) 0x6C NONE.
(* xbyak_mnemonic.h:1541 *)
Definition i_vpunpcklwd_xxo (p_x1 : Reg) (p_x2 : Reg) (p_op : Operand) : E unit :=
  opAVX_X_X_XM p_x1 (OReg p_x2) p_op (((T_66 ||| T_0F) ||| T_YMM) ||| T_EVEX) 0x61 NONE.
(* xbyak_mnemonic.h:1542 *)
Definition i_vpxor_xxo (p_x1 : Reg) (p_x2 : Reg) (p_op : Operand) : E unit :=
  opAVX_X_X_XM p_x1 (OReg p_x2) p_op ((T_66 ||| T_0F) ||| T_YMM) 0xEF NONE.
(* xbyak_mnemonic.h:1543 *)
Definition i_vrcpps (p_xm : Reg) (p_op : Operand) : E unit :=
  opAVX_X_XM_IMM p_xm p_op (T_0F ||| T_YMM) 0x53 NONE.
(* xbyak_mnemonic.h:1544 *)
Definition i_vrcpss_xxo (p_x1 : Reg) (p_x2 : Reg) (p_op : Operand) : E unit :=
  opAVX_X_X_XM p_x1 (OReg p_x2) p_op (T_F3 ||| T_0F) 0x53 NONE.
(* xbyak_mnemonic.h:1545 *)
Definition i_vroundpd (p_xm : Reg) (p_op : Operand) (p_imm : Z) : E unit :=
  let p_imm := w8 p_imm in opAVX_X_XM_IMM p_xm p_op ((T_66 ||| T_0F3A) ||| T_YMM) 0x09 p_imm.
(* xbyak_mnemonic.h:1546 *)
Definition i_vroundps (p_xm : Reg) (p_op : Operand) (p_imm : Z) : E unit :=
  let p_imm := w8 p_imm in opAVX_X_XM_IMM p_xm p_op ((T_66 ||| T_0F3A) ||| T_YMM) 0x08 p_imm.
(* xbyak_mnemonic.h:1547 *)
Definition i_vroundsd_xxoi (p_x1 : Reg) (p_x2 : Reg) (p_op : Operand) (p_imm : Z) : E unit :=
  let p_imm := w8 p_imm in opAVX_X_X_XM p_x1 (OReg p_x2) p_op ((T_66 ||| T_0F3A) ||| T_W0) 0x0B p_imm.
(* xbyak_mnemonic.h:1548 *)
Definition i_vroundss_xxoi (p_x1 : Reg) (p_x2 : Reg) (p_op : Operand) (p_imm : Z) : E unit :=
  let p_imm := w8 p_imm in opAVX_X_X_XM p_x1 (OReg p_x2) p_op ((T_66 ||| T_0F3A) ||| T_W0) 0x0A p_imm.
(* xbyak_mnemonic.h:1549 *)
Definition i_vrsqrtps (p_xm : Reg) (p_op : Operand) : E unit :=
  opAVX_X_XM_IMM p_xm p_op (T_0F ||| T_YMM) 0x52 NONE.
(* xbyak_mnemonic.h:1550 *)
Definition i_vrsqrtss_xxo (p_x1 : Reg) (p_x2 : Reg) (p_op : Operand) : E unit :=
  opAVX_X_X_XM p_x1 (OReg p_x2) p_op (T_F3 ||| T_0F) 0x52 NONE.
(* xbyak_mnemonic.h:1551 *)
Definition i_vsha512msg1 (p_y : Reg) (p_x : Reg) : E unit :=
  fn tt (if (negb ((isYMM p_y) && (isXMM p_x))) then throw ERR_BAD_PARAMETER else opVex p_y None (OReg p_x) (((T_F2 ||| T_0F38) ||| T_W0) ||| T_YMM) 0xCC NONE).
(* xbyak_mnemonic.h:1552 *)
Definition i_vsha512msg2 (p_y1 : Reg) (p_y2 : Reg) : E unit :=
  fn tt (if (negb ((isYMM p_y1) && (isYMM p_y2))) then throw ERR_BAD_PARAMETER else opVex p_y1 None (OReg p_y2) (((T_F2 ||| T_0F38) ||| T_W0) ||| T_YMM) 0xCD NONE).
(* xbyak_mnemonic.h:1553 *)
Definition i_vsha512rnds2 (p_y1 : Reg) (p_y2 : Reg) (p_x : Reg) : E unit :=
  fn tt (if (negb (((isYMM p_y1) && (isYMM p_y2)) && (isXMM p_x))) then throw ERR_BAD_PARAMETER else opVex p_y1 (Some p_y2) (OReg p_x) (((T_F2 ||| T_0F38) ||| T_W0) ||| T_YMM) 0xCB NONE).
(* xbyak_mnemonic.h:1554 *)
Definition i_vshufpd_xxoi (p_x1 : Reg) (p_x2 : Reg) (p_op : Operand) (p_imm : Z) : E unit :=
  let p_imm := w8 p_imm in opAVX_X_X_XM p_x1 (OReg p_x2) p_op (((((T_66 ||| T_0F) ||| T_EW1) ||| T_YMM) ||| T_EVEX) ||| T_B64) 0xC6 p_imm.
(* xbyak_mnemonic.h:1555 *)
Definition i_vshufps_xxoi (p_x1 : Reg) (p_x2 : Reg) (p_op : Operand) (p_imm : Z) : E unit :=
  let p_imm := w8 p_imm in opAVX_X_X_XM p_x1 (OReg p_x2) p_op ((((T_0F ||| T_EW0) ||| T_YMM) ||| T_EVEX) ||| T_B32) 0xC6 p_imm.
(* xbyak_mnemonic.h:1556 *)
Definition i_vsm3msg1 (p_x1 : Reg) (p_x2 : Reg) (p_op : Operand) : E unit :=
  opAVX_X_X_XM p_x1 (OReg p_x2) p_op (((T_0F38 ||| T_W0) ||| T_EW0) ||| T_EVEX) 0xDA NONE.
(* xbyak_mnemonic.h:1557 *)
Definition i_vsm3msg2 (p_x1 : Reg) (p_x2 : Reg) (p_op : Operand) : E unit :=
  opAVX_X_X_XM p_x1 (OReg p_x2) p_op ((((T_66 ||| T_0F38) ||| T_W0) ||| T_EW0) ||| T_EVEX) 0xDA NONE.
(* xbyak_mnemonic.h:1558 *)
Definition i_vsm3rnds2 (p_x1 : Reg) (p_x2 : Reg) (p_op : Operand) (p_imm : Z) : E unit :=
  let p_imm := w8 p_imm in opAVX_X_X_XM p_x1 (OReg p_x2) p_op ((((T_66 ||| T_0F3A) ||| T_W0) ||| T_EW0) ||| T_EVEX) 0xDE p_imm.
(* xbyak_mnemonic.h:1559 *)
Definition i_vsm4key4 (p_x1 : Reg) (p_x2 : Reg) (p_op : Operand) : E unit :=
  opAVX_X_X_XM p_x1 (OReg p_x2) p_op ((((T_F3 ||| T_0F38) ||| T_W0) ||| T_EW0) ||| T_EVEX) 0xDA NONE.
(* xbyak_mnemonic.h:1560 *)
Definition i_vsm4rnds4 (p_x1 : Reg) (p_x2 : Reg) (p_op : Operand) : E unit :=
  opAVX_X_X_XM p_x1 (OReg p_x2) p_op ((((T_F2 ||| T_0F38) ||| T_W0) ||| T_EW0) ||| T_EVEX) 0xDA NONE.
(* xbyak_mnemonic.h:1561 *)
Definition i_vsqrtpd (p_xm : Reg) (p_op : Operand) : E unit :=
  opAVX_X_XM_IMM p_xm p_op ((((((T_66 ||| T_0F) ||| T_EW1) ||| T_YMM) ||| T_EVEX) ||| T_ER_Z) ||| T_B64) 0x51 NONE.
(* xbyak_mnemonic.h:1562 *)
Definition i_vsqrtps (p_xm : Reg) (p_op : Operand) : E unit :=
  opAVX_X_XM_IMM p_xm p_op (((((T_0F ||| T_EW0) ||| T_YMM) ||| T_EVEX) ||| T_ER_Z) ||| T_B32) 0x51 NONE.
(* xbyak_mnemonic.h:1563 *)
Definition i_vsqrtsd_xxo (p_x1 : Reg) (p_x2 : Reg) (p_op : Operand) : E unit :=
  opAVX_X_X_XM p_x1 (OReg p_x2) p_op (((((T_N8 ||| T_F2) ||| T_0F) ||| T_EW1) ||| T_EVEX) ||| T_ER_X) 0x51 NONE.
(* xbyak_mnemonic.h:1564 *)
Definition i_vsqrtss_xxo (p_x1 : Reg) (p_x2 : Reg) (p_op : Operand) : E unit :=
  opAVX_X_X_XM p_x1 (OReg p_x2) p_op (((((T_N4 ||| T_F3) ||| T_0F) ||| T_EW0) ||| T_EVEX) ||| T_ER_X) 0x51 NONE.
(* xbyak_mnemonic.h:1565 *)
Definition i_vstmxcsr (p_addr : Address) : E unit :=
  opAVX_X_X_XM (Xmm 3) (OReg (Xmm 0)) (OMem p_addr) T_0F 0xAE NONE.
(* xbyak_mnemonic.h:1566 *)
Definition i_vsubpd (p_xmm : Reg) (p_op1 : Operand) (p_op2 : Operand) : E unit :=
  opAVX_X_X_XM p_xmm p_op1 p_op2 ((((((T_0F ||| T_66) ||| T_EW1) ||| T_YMM) ||| T_EVEX) ||| T_ER_Z) ||| T_B64) 0x5C NONE.
(* xbyak_mnemonic.h:1567 *)
Definition i_vsubps (p_xmm : Reg) (p_op1 : Operand) (p_op2 : Operand) : E unit :=
  opAVX_X_X_XM p_xmm p_op1 p_op2 (((((T_0F ||| T_EW0) ||| T_YMM) ||| T_EVEX) ||| T_ER_Z) ||| T_B32) 0x5C NONE.
(* xbyak_mnemonic.h:1568 *)
Definition i_vsubsd (p_xmm : Reg) (p_op1 : Operand) (p_op2 : Operand) : E unit :=
  opAVX_X_X_XM p_xmm p_op1 p_op2 (((((T_0F ||| T_F2) ||| T_EW1) ||| T_EVEX) ||| T_ER_X) ||| T_N8) 0x5C NONE.
(* xbyak_mnemonic.h:1569 *)
Definition i_vsubss (p_xmm : Reg) (p_op1 : Operand) (p_op2 : Operand) : E unit :=
  opAVX_X_X_XM p_xmm p_op1 p_op2 (((((T_0F ||| T_F3) ||| T_EW0) ||| T_EVEX) ||| T_ER_X) ||| T_N4) 0x5C NONE.
(* xbyak_mnemonic.h:1570 *)
Definition i_vtestpd (p_xm : Reg) (p_op : Operand) : E unit :=
  opAVX_X_XM_IMM p_xm p_op ((T_66 ||| T_0F38) ||| T_YMM) 0x0F NONE.
(* xbyak_mnemonic.h:1571 *)
Definition i_vtestps (p_xm : Reg) (p_op : Operand) : E unit :=
  opAVX_X_XM_IMM p_xm p_op ((T_66 ||| T_0F38) ||| T_YMM) 0x0E NONE.
(* xbyak_mnemonic.h:1572 *)
Definition i_vucomisd (p_xm : Reg) (p_op : Operand) : E unit :=
  opAVX_X_XM_IMM p_xm p_op (((((T_N8 ||| T_66) ||| T_0F) ||| T_EW1) ||| T_EVEX) ||| T_SAE_X) 0x2E NONE.
(* xbyak_mnemonic.h:1573 *)
Definition i_vucomiss (p_xm : Reg) (p_op : Operand) : E unit :=
  opAVX_X_XM_IMM p_xm p_op ((((T_N4 ||| T_0F) ||| T_EW0) ||| T_EVEX) ||| T_SAE_X) 0x2E NONE.
(* xbyak_mnemonic.h:1574 *)
Definition i_vunpckhpd_xxo (p_x1 : Reg) (p_x2 : Reg) (p_op : Operand) : E unit :=
  opAVX_X_X_XM p_x1 (OReg p_x2) p_op (((((T_66 ||| T_0F) ||| T_EW1) ||| T_YMM) ||| T_EVEX) ||| T_B64) 0x15 NONE.
(* xbyak_mnemonic.h:1575 *)
Definition i_vunpckhps_xxo (p_x1 : Reg) (p_x2 : Reg) (p_op : Operand) : E unit :=
  opAVX_X_X_XM p_x1 (OReg p_x2) p_op ((((T_0F ||| T_EW0) ||| T_YMM) ||| T_EVEX) ||| T_B32) 0x15 NONE.
(* xbyak_mnemonic.h:1576 *)
Definition i_vunpcklpd_xxo (p_x1 : Reg) (p_x2 : Reg) (p_op : Operand) : E unit :=
  opAVX_X_X_XM p_x1 (OReg p_x2) p_op (((((T_66 ||| T_0F) ||| T_EW1) ||| T_YMM) ||| T_EVEX) ||| T_B64) 0x14 NONE.
(* xbyak_mnemonic.h:1577 *)
Definition i_vunpcklps_xxo (p_x1 : Reg) (p_x2 : Reg) (p_op : Operand) : E unit :=
  opAVX_X_X_XM p_x1 (OReg p_x2) p_op ((((T_0F ||| T_EW0) ||| T_YMM) ||| T_EVEX) ||| T_B32) 0x14 NONE.
(* xbyak_mnemonic.h:1578 *)
Definition i_vxorpd (p_xmm : Reg) (p_op1 : Operand) (p_op2 : Operand) : E unit :=
  opAVX_X_X_XM p_xmm p_op1 p_op2 (((((T_0F ||| T_66) ||| T_EW1) ||| T_YMM) ||| T_EVEX) ||| T_B64) 0x57 NONE.
(* xbyak_mnemonic.h:1579 *)
Definition i_vxorps (p_xmm : Reg) (p_op1 : Operand) (p_op2 : Operand) : E unit :=
  opAVX_X_X_XM p_xmm p_op1 p_op2 ((((T_0F ||| T_EW0) ||| T_YMM) ||| T_EVEX) ||| T_B32) 0x57 NONE.
(* xbyak_mnemonic.h:1580 *)
Definition i_vzeroall : E unit :=
  db 0xC5 ;;; db 0xFC ;;; db 0x77.
(* xbyak_mnemonic.h:1581 *)
Definition i_vzeroupper : E unit :=
  db 0xC5 ;;; db 0xF8 ;;; db 0x77.
(* xbyak_mnemonic.h:1582 *)
Definition i_wait : E unit :=
  db 0x9B.
(* xbyak_mnemonic.h:1583 *)
Definition i_wbinvd : E unit :=
  db 0x0F ;;; db 0x09.
(* xbyak_mnemonic.h:1584 *)
Definition i_wrmsr : E unit :=
  db 0x0F ;;; db 0x30.
(* xbyak_mnemonic.h:1585 *)
Definition i_xabort (p_imm : Z) : E unit :=
  let p_imm := w8 p_imm in db 0xC6 ;;; db 0xF8 ;;; db p_imm.
(* xbyak_mnemonic.h:1586 *)
Definition i_xadd (p_op : Operand) (p_reg : Reg) : E unit :=
  opRO p_reg p_op T_0F (0xC0 ||| (if (isBit p_reg 8) then 0 else 1)) ((getBit (ob p_op)) =? (getBit p_reg)) 0.
(* xbyak_mnemonic.h:1587 *)
Definition i_xbegin (p_rel : Z) : E unit :=
  let p_rel := w32 p_rel in db 0xC7 ;;; db 0xF8 ;;; dd p_rel.
(* xbyak_mnemonic.h:1588 *)
Definition i_xend : E unit :=
  db 0x0F ;;; db 0x01 ;;; db 0xD5.
(* xbyak_mnemonic.h:1589 *)
Definition i_xgetbv : E unit :=
  db 0x0F ;;; db 0x01 ;;; db 0xD0.
(* xbyak_mnemonic.h:1590 *)
Definition i_xlatb : E unit :=
  db 0xD7.
(* xbyak_mnemonic.h:1591 *)
Definition i_xor__oi (p_op : Operand) (p_imm : Z) : E unit :=
  let p_imm := w32 p_imm in opOI p_op p_imm 0x30 6.
(* xbyak_mnemonic.h:1592 *)
Definition i_xor__oo (p_op1 : Operand) (p_op2 : Operand) : E unit :=
  opRO_MR p_op1 p_op2 0x30.
(* xbyak_mnemonic.h:1593 *)
Definition i_xor__roi (p_d : Reg) (p_op : Operand) (p_imm : Z) : E unit :=
  let p_imm := w32 p_imm in opROI p_d p_op p_imm (T_NF ||| T_CODE1_IF1) 6.
(* xbyak_mnemonic.h:1594 *)
Definition i_xor__roo (p_d : Reg) (p_op1 : Operand) (p_op2 : Operand) : E unit :=
  opROO p_d p_op1 p_op2 (T_NF ||| T_CODE1_IF1) 0x30 0 NONE ;;; ret tt.
(* xbyak_mnemonic.h:1595 *)
Definition i_xorpd (p_xmm : Reg) (p_op : Operand) : E unit :=
  opSSE p_xmm p_op (T_0F ||| T_66) 0x57 (Some isXMM_XMMorMEM) NONE.
(* xbyak_mnemonic.h:1596 *)
Definition i_xorps (p_xmm : Reg) (p_op : Operand) : E unit :=
  opSSE p_xmm p_op T_0F 0x57 (Some isXMM_XMMorMEM) NONE.
(* xbyak_mnemonic.h:1597 *)
Definition i_xresldtrk : E unit :=
  db 0xF2 ;;; db 0x0F ;;; db 0x01 ;;; db 0xE9.
(* xbyak_mnemonic.h:1598 *)
Definition i_xsusldtrk : E unit :=
  db 0xF2 ;;; db 0x0F ;;; db 0x01 ;;; db 0xE8.
(* xbyak_mnemonic.h:1862 *)
Definition i_cdqe : E unit :=
  db 0x48 ;;; db 0x98.
(* xbyak_mnemonic.h:1863 *)
Definition i_cqo : E unit :=
  db 0x48 ;;; db 0x99.
(* xbyak_mnemonic.h:1864 *)
Definition i_cmpsq : E unit :=
  db 0x48 ;;; db 0xA7.
(* xbyak_mnemonic.h:1865 *)
Definition i_popfq : E unit :=
  db 0x9D.
(* xbyak_mnemonic.h:1866 *)
Definition i_pushfq : E unit :=
  db 0x9C.
(* xbyak_mnemonic.h:1867 *)
Definition i_lodsq : E unit :=
  db 0x48 ;;; db 0xAD.
(* xbyak_mnemonic.h:1868 *)
Definition i_movsq : E unit :=
  db 0x48 ;;; db 0xA5.
(* xbyak_mnemonic.h:1869 *)
Definition i_scasq : E unit :=
  db 0x48 ;;; db 0xAF.
(* xbyak_mnemonic.h:1870 *)
Definition i_stosq : E unit :=
  db 0x48 ;;; db 0xAB.
(* xbyak_mnemonic.h:1871 *)
Definition i_syscall : E unit :=
  db 0x0F ;;; db 0x05.
(* xbyak_mnemonic.h:1872 *)
Definition i_sysret : E unit :=
  db 0x0F ;;; db 0x07.
(* xbyak_mnemonic.h:1873 *)
Definition i_clui : E unit :=
  db 0xF3 ;;; db 0x0F ;;; db 0x01 ;;; db 0xEE.
(* xbyak_mnemonic.h:1874 *)
Definition i_stui : E unit :=
  db 0xF3 ;;; db 0x0F ;;; db 0x01 ;;; db 0xEF.
(* xbyak_mnemonic.h:1875 *)
Definition i_testui : E unit :=
  db 0xF3 ;;; db 0x0F ;;; db 0x01 ;;; db 0xED.
(* xbyak_mnemonic.h:1876 *)
Definition i_uiret : E unit :=
  db 0xF3 ;;; db 0x0F ;;; db 0x01 ;;; db 0xEC.
(* xbyak_mnemonic.h:1877 *)
Definition i_cmpxchg16b (p_addr : Address) : E unit :=
  opMR p_addr (Reg64 1) T_0F 0xC7 0 NONE.
(* xbyak_mnemonic.h:1878 *)
Definition i_fxrstor64 (p_addr : Address) : E unit :=
  opMR p_addr (Reg64 1) T_0F 0xAE 0 NONE.
(* xbyak_mnemonic.h:1879 *)
Definition i_movq_qm (p_reg : Reg) (p_mmx : Reg) : E unit :=
  (when (isXMM p_mmx) do (db 0x66)) ;;; opSSE p_mmx (OReg p_reg) T_0F 0x7E None NONE.
(* xbyak_mnemonic.h:1880 *)
Definition i_movq_mq (p_mmx : Reg) (p_reg : Reg) : E unit :=
  (when (isXMM p_mmx) do (db 0x66)) ;;; opSSE p_mmx (OReg p_reg) T_0F 0x6E None NONE.
(* xbyak_mnemonic.h:1881 *)
Definition i_movsxd (p_reg : Reg) (p_op : Operand) : E unit :=
  fn tt (if (negb (isBit (ob p_op) 32)) then throw ERR_BAD_COMBINATION else opRO p_reg p_op T_ALLOW_DIFF_SIZE 0x63 true 0).
(* xbyak_mnemonic.h:1882 *)
Definition i_pextrq (p_op : Operand) (p_xmm : Reg) (p_imm : Z) : E unit :=
  fn tt (let p_imm := w8 p_imm in if ((negb (isREGb (ob p_op) 64)) && (negb (isMEM p_op))) then throw ERR_BAD_COMBINATION else opSSE (Reg64 (getIdx p_xmm)) p_op (T_66 ||| T_0F3A) 0x16 None p_imm).
(* xbyak_mnemonic.h:1883 *)
Definition i_pinsrq (p_xmm : Reg) (p_op : Operand) (p_imm : Z) : E unit :=
  fn tt (let p_imm := w8 p_imm in if ((negb (isREGb (ob p_op) 64)) && (negb (isMEM p_op))) then throw ERR_BAD_COMBINATION else opSSE (Reg64 (getIdx p_xmm)) p_op (T_66 ||| T_0F3A) 0x22 None p_imm).
(* xbyak_mnemonic.h:1884 *)
Definition i_senduipi (p_r : Reg) : E unit :=
  t0 <- cvt32 p_r ;; opRR (Reg32 6) t0 (T_F3 ||| T_0F) 0xC7.
(* xbyak_mnemonic.h:1885 *)
Definition i_vcvtss2si_qo (p_r : Reg) (p_op : Operand) : E unit :=
  opAVX_X_X_XM (Xmm (getIdx p_r)) (OReg (Xmm 0)) p_op ((((((T_0F ||| T_F3) ||| T_W1) ||| T_EVEX) ||| T_EW1) ||| T_ER_X) ||| T_N8) 0x2D NONE.
(* xbyak_mnemonic.h:1886 *)
Definition i_vcvttss2si_qo (p_r : Reg) (p_op : Operand) : E unit :=
  opAVX_X_X_XM (Xmm (getIdx p_r)) (OReg (Xmm 0)) p_op ((((((T_0F ||| T_F3) ||| T_W1) ||| T_EVEX) ||| T_EW1) ||| T_SAE_X) ||| T_N8) 0x2C NONE.
(* xbyak_mnemonic.h:1887 *)
Definition i_vcvtsd2si_qo (p_r : Reg) (p_op : Operand) : E unit :=
  opAVX_X_X_XM (Xmm (getIdx p_r)) (OReg (Xmm 0)) p_op ((((((T_0F ||| T_F2) ||| T_W1) ||| T_EVEX) ||| T_EW1) ||| T_N4) ||| T_ER_X) 0x2D NONE.
(* xbyak_mnemonic.h:1888 *)
Definition i_vcvttsd2si_qo (p_r : Reg) (p_op : Operand) : E unit :=
  opAVX_X_X_XM (Xmm (getIdx p_r)) (OReg (Xmm 0)) p_op ((((((T_0F ||| T_F2) ||| T_W1) ||| T_EVEX) ||| T_EW1) ||| T_N4) ||| T_SAE_X) 0x2C NONE.
(* xbyak_mnemonic.h:1889 *)
Definition i_vmovq_xq (p_x : Reg) (p_r : Reg) : E unit :=
  opAVX_X_X_XM p_x (OReg (Xmm 0)) (OReg (Xmm (getIdx p_r))) ((((T_66 ||| T_0F) ||| T_W1) ||| T_EVEX) ||| T_EW1) 0x6E NONE.
(* xbyak_mnemonic.h:1890 *)
Definition i_vmovq_qx (p_r : Reg) (p_x : Reg) : E unit :=
  opAVX_X_X_XM p_x (OReg (Xmm 0)) (OReg (Xmm (getIdx p_r))) ((((T_66 ||| T_0F) ||| T_W1) ||| T_EVEX) ||| T_EW1) 0x7E NONE.
(* xbyak_mnemonic.h:1891 *)
Definition i_jmpabs (p_addr : Z) : E unit :=
  let p_addr := w64 p_addr in db 0xD5 ;;; db 0x00 ;;; db 0xA1 ;;; dq p_addr.
(* xbyak_mnemonic.h:1892 *)
Definition i_push2 (p_r1 : Reg) (p_r2 : Reg) : E unit :=
  opROO p_r1 (OReg p_r2) (OReg (Reg64 6)) ((T_APX ||| T_ND1) ||| T_W0) 0xFF 0 NONE ;;; ret tt.
(* xbyak_mnemonic.h:1893 *)
Definition i_push2p (p_r1 : Reg) (p_r2 : Reg) : E unit :=
  opROO p_r1 (OReg p_r2) (OReg (Reg64 6)) ((T_APX ||| T_ND1) ||| T_W1) 0xFF 0 NONE ;;; ret tt.
(* xbyak_mnemonic.h:1894 *)
Definition i_pop2 (p_r1 : Reg) (p_r2 : Reg) : E unit :=
  opROO p_r1 (OReg p_r2) (OReg (Reg64 0)) ((T_APX ||| T_ND1) ||| T_W0) 0x8F 0 NONE ;;; ret tt.
(* xbyak_mnemonic.h:1895 *)
Definition i_pop2p (p_r1 : Reg) (p_r2 : Reg) : E unit :=
  opROO p_r1 (OReg p_r2) (OReg (Reg64 0)) ((T_APX ||| T_ND1) ||| T_W1) 0x8F 0 NONE ;;; ret tt.
(* xbyak_mnemonic.h:1896 *)
Definition i_cmpbexadd (p_addr : Address) (p_r1 : Reg) (p_r2 : Reg) : E unit :=
  opRRO p_r1 p_r2 (OMem p_addr) ((T_APX ||| T_66) ||| T_0F38) 0xE6 NONE.
(* xbyak_mnemonic.h:1897 *)
Definition i_cmpbxadd (p_addr : Address) (p_r1 : Reg) (p_r2 : Reg) : E unit :=
  opRRO p_r1 p_r2 (OMem p_addr) ((T_APX ||| T_66) ||| T_0F38) 0xE2 NONE.
(* xbyak_mnemonic.h:1898 *)
Definition i_cmplexadd (p_addr : Address) (p_r1 : Reg) (p_r2 : Reg) : E unit :=
  opRRO p_r1 p_r2 (OMem p_addr) ((T_APX ||| T_66) ||| T_0F38) 0xEE NONE.
(* xbyak_mnemonic.h:1899 *)
Definition i_cmplxadd (p_addr : Address) (p_r1 : Reg) (p_r2 : Reg) : E unit :=
  opRRO p_r1 p_r2 (OMem p_addr) ((T_APX ||| T_66) ||| T_0F38) 0xEC NONE.
(* xbyak_mnemonic.h:1900 *)
Definition i_cmpnbexadd (p_addr : Address) (p_r1 : Reg) (p_r2 : Reg) : E unit :=
  opRRO p_r1 p_r2 (OMem p_addr) ((T_APX ||| T_66) ||| T_0F38) 0xE7 NONE.
(* xbyak_mnemonic.h:1901 *)
Definition i_cmpnbxadd (p_addr : Address) (p_r1 : Reg) (p_r2 : Reg) : E unit :=
  opRRO p_r1 p_r2 (OMem p_addr) ((T_APX ||| T_66) ||| T_0F38) 0xE3 NONE.
(* xbyak_mnemonic.h:1902 *)
Definition i_cmpnlexadd (p_addr : Address) (p_r1 : Reg) (p_r2 : Reg) : E unit :=
  opRRO p_r1 p_r2 (OMem p_addr) ((T_APX ||| T_66) ||| T_0F38) 0xEF NONE.
(* xbyak_mnemonic.h:1903 *)
Definition i_cmpnlxadd (p_addr : Address) (p_r1 : Reg) (p_r2 : Reg) : E unit :=
  opRRO p_r1 p_r2 (OMem p_addr) ((T_APX ||| T_66) ||| T_0F38) 0xED NONE.
(* xbyak_mnemonic.h:1904 *)
Definition i_cmpnoxadd (p_addr : Address) (p_r1 : Reg) (p_r2 : Reg) : E unit :=
  opRRO p_r1 p_r2 (OMem p_addr) ((T_APX ||| T_66) ||| T_0F38) 0xE1 NONE.
(* xbyak_mnemonic.h:1905 *)
Definition i_cmpnpxadd (p_addr : Address) (p_r1 : Reg) (p_r2 : Reg) : E unit :=
  opRRO p_r1 p_r2 (OMem p_addr) ((T_APX ||| T_66) ||| T_0F38) 0xEB NONE.
(* xbyak_mnemonic.h:1906 *)
Definition i_cmpnsxadd (p_addr : Address) (p_r1 : Reg) (p_r2 : Reg) : E unit :=
  opRRO p_r1 p_r2 (OMem p_addr) ((T_APX ||| T_66) ||| T_0F38) 0xE9 NONE.
(* xbyak_mnemonic.h:1907 *)
Definition i_cmpnzxadd (p_addr : Address) (p_r1 : Reg) (p_r2 : Reg) : E unit :=
  opRRO p_r1 p_r2 (OMem p_addr) ((T_APX ||| T_66) ||| T_0F38) 0xE5 NONE.
(* xbyak_mnemonic.h:1908 *)
Definition i_cmpoxadd (p_addr : Address) (p_r1 : Reg) (p_r2 : Reg) : E unit :=
  opRRO p_r1 p_r2 (OMem p_addr) ((T_APX ||| T_66) ||| T_0F38) 0xE0 NONE.
(* xbyak_mnemonic.h:1909 *)
Definition i_cmppxadd (p_addr : Address) (p_r1 : Reg) (p_r2 : Reg) : E unit :=
  opRRO p_r1 p_r2 (OMem p_addr) ((T_APX ||| T_66) ||| T_0F38) 0xEA NONE.
(* xbyak_mnemonic.h:1910 *)
Definition i_cmpsxadd (p_addr : Address) (p_r1 : Reg) (p_r2 : Reg) : E unit :=
  opRRO p_r1 p_r2 (OMem p_addr) ((T_APX ||| T_66) ||| T_0F38) 0xE8 NONE.
(* xbyak_mnemonic.h:1911 *)
Definition i_cmpzxadd (p_addr : Address) (p_r1 : Reg) (p_r2 : Reg) : E unit :=
  opRRO p_r1 p_r2 (OMem p_addr) ((T_APX ||| T_66) ||| T_0F38) 0xE4 NONE.
(* xbyak_mnemonic.h:1912 *)
Definition i_aesdec128kl (p_x : Reg) (p_addr : Address) : E unit :=
  opSSE_APX p_x (OMem p_addr) (T_F3 ||| T_0F38) 0xDD (T_F3 ||| T_MUST_EVEX) 0xDD NONE.
(* xbyak_mnemonic.h:1913 *)
Definition i_aesdec256kl (p_x : Reg) (p_addr : Address) : E unit :=
  opSSE_APX p_x (OMem p_addr) (T_F3 ||| T_0F38) 0xDF (T_F3 ||| T_MUST_EVEX) 0xDF NONE.
(* xbyak_mnemonic.h:1914 *)
Definition i_aesdecwide128kl (p_addr : Address) : E unit :=
  opSSE_APX (Xmm 1) (OMem p_addr) (T_F3 ||| T_0F38) 0xD8 (T_F3 ||| T_MUST_EVEX) 0xD8 NONE.
(* xbyak_mnemonic.h:1915 *)
Definition i_aesdecwide256kl (p_addr : Address) : E unit :=
  opSSE_APX (Xmm 3) (OMem p_addr) (T_F3 ||| T_0F38) 0xD8 (T_F3 ||| T_MUST_EVEX) 0xD8 NONE.
(* xbyak_mnemonic.h:1916 *)
Definition i_aesenc128kl (p_x : Reg) (p_addr : Address) : E unit :=
  opSSE_APX p_x (OMem p_addr) (T_F3 ||| T_0F38) 0xDC (T_F3 ||| T_MUST_EVEX) 0xDC NONE.
(* xbyak_mnemonic.h:1917 *)
Definition i_aesenc256kl (p_x : Reg) (p_addr : Address) : E unit :=
  opSSE_APX p_x (OMem p_addr) (T_F3 ||| T_0F38) 0xDE (T_F3 ||| T_MUST_EVEX) 0xDE NONE.
(* xbyak_mnemonic.h:1918 *)
Definition i_aesencwide128kl (p_addr : Address) : E unit :=
  opSSE_APX (Xmm 0) (OMem p_addr) (T_F3 ||| T_0F38) 0xD8 (T_F3 ||| T_MUST_EVEX) 0xD8 NONE.
(* xbyak_mnemonic.h:1919 *)
Definition i_aesencwide256kl (p_addr : Address) : E unit :=
  opSSE_APX (Xmm 2) (OMem p_addr) (T_F3 ||| T_0F38) 0xD8 (T_F3 ||| T_MUST_EVEX) 0xD8 NONE.
(* xbyak_mnemonic.h:1920 *)
Definition i_encodekey128 (p_r1 : Reg) (p_r2 : Reg) : E unit :=
  opEncodeKey p_r1 p_r2 0xFA 0xDA.
(* xbyak_mnemonic.h:1921 *)
Definition i_encodekey256 (p_r1 : Reg) (p_r2 : Reg) : E unit :=
  opEncodeKey p_r1 p_r2 0xFB 0xDB.
(* xbyak_mnemonic.h:1922 *)
Definition i_rdfsbase (p_r : Reg) : E unit :=
  opRR (Reg32 0) p_r ((T_F3 ||| T_0F) ||| T_ALLOW_DIFF_SIZE) 0xAE.
(* xbyak_mnemonic.h:1923 *)
Definition i_rdgsbase (p_r : Reg) : E unit :=
  opRR (Reg32 1) p_r ((T_F3 ||| T_0F) ||| T_ALLOW_DIFF_SIZE) 0xAE.
(* xbyak_mnemonic.h:1924 *)
Definition i_wrfsbase (p_r : Reg) : E unit :=
  opRR (Reg32 2) p_r ((T_F3 ||| T_0F) ||| T_ALLOW_DIFF_SIZE) 0xAE.
(* xbyak_mnemonic.h:1925 *)
Definition i_wrgsbase (p_r : Reg) : E unit :=
  opRR (Reg32 3) p_r ((T_F3 ||| T_0F) ||| T_ALLOW_DIFF_SIZE) 0xAE.
(* xbyak_mnemonic.h:1926 *)
Definition i_ldtilecfg (p_addr : Address) : E unit :=
  done <- opROO noReg (OMem p_addr) (OReg (Tmm 0)) ((T_APX ||| T_0F38) ||| T_W0) 0x49 0 NONE ;; if (done : bool) then ret tt else opVex (Tmm 0) (Some (Tmm 0)) (OMem p_addr) (T_0F38 ||| T_W0) 0x49 NONE.
(* xbyak_mnemonic.h:1927 *)
Definition i_sttilecfg (p_addr : Address) : E unit :=
  done <- opROO noReg (OMem p_addr) (OReg (Tmm 0)) (((T_APX ||| T_66) ||| T_0F38) ||| T_W0) 0x49 0 NONE ;; if (done : bool) then ret tt else opVex (Tmm 0) (Some (Tmm 0)) (OMem p_addr) ((T_66 ||| T_0F38) ||| T_W0) 0x49 NONE.
(* xbyak_mnemonic.h:1928 *)
Definition i_tileloadd (p_tm : Reg) (p_addr : Address) : E unit :=
  opAMX p_tm p_addr ((T_F2 ||| T_0F38) ||| T_W0) 0x4B.
(* xbyak_mnemonic.h:1929 *)
Definition i_tileloaddt1 (p_tm : Reg) (p_addr : Address) : E unit :=
  opAMX p_tm p_addr ((T_66 ||| T_0F38) ||| T_W0) 0x4B.
(* xbyak_mnemonic.h:1930 *)
Definition i_tilerelease : E unit :=
  db 0xc4 ;;; db 0xe2 ;;; db 0x78 ;;; db 0x49 ;;; db 0xc0.
(* xbyak_mnemonic.h:1931 *)
Definition i_tilestored (p_addr : Address) (p_tm : Reg) : E unit :=
  done <- opROO noReg (OMem p_addr) (OReg p_tm) (((T_APX ||| T_F3) ||| T_0F38) ||| T_W0) 0x4B 0 NONE ;; if (done : bool) then ret tt else opVex p_tm (Some (Tmm 0)) (OMem p_addr) ((T_F3 ||| T_0F38) ||| T_W0) 0x4B NONE.
(* xbyak_mnemonic.h:1932 *)
Definition i_tilezero (p_Tmm : Reg) : E unit :=
  opVex p_Tmm (Some (Tmm 0)) (OReg (Tmm 0)) ((T_F2 ||| T_0F38) ||| T_W0) 0x49 NONE.
(* xbyak_mnemonic.h:1933 *)
Definition i_tdpbssd (p_x1 : Reg) (p_x2 : Reg) (p_x3 : Reg) : E unit :=
  opVex p_x1 (Some p_x3) (OReg p_x2) ((T_F2 ||| T_0F38) ||| T_W0) 0x5e NONE.
(* xbyak_mnemonic.h:1934 *)
Definition i_tdpbsud (p_x1 : Reg) (p_x2 : Reg) (p_x3 : Reg) : E unit :=
  opVex p_x1 (Some p_x3) (OReg p_x2) ((T_F3 ||| T_0F38) ||| T_W0) 0x5e NONE.
(* xbyak_mnemonic.h:1935 *)
Definition i_tdpbusd (p_x1 : Reg) (p_x2 : Reg) (p_x3 : Reg) : E unit :=
  opVex p_x1 (Some p_x3) (OReg p_x2) ((T_66 ||| T_0F38) ||| T_W0) 0x5e NONE.
(* xbyak_mnemonic.h:1936 *)
Definition i_tdpbuud (p_x1 : Reg) (p_x2 : Reg) (p_x3 : Reg) : E unit :=
  opVex p_x1 (Some p_x3) (OReg p_x2) (T_0F38 ||| T_W0) 0x5e NONE.
(* xbyak_mnemonic.h:1937 *)
Definition i_tdpfp16ps (p_x1 : Reg) (p_x2 : Reg) (p_x3 : Reg) : E unit :=
  opVex p_x1 (Some p_x3) (OReg p_x2) ((T_F2 ||| T_0F38) ||| T_W0) 0x5c NONE.
(* xbyak_mnemonic.h:1938 *)
Definition i_tdpbf16ps (p_x1 : Reg) (p_x2 : Reg) (p_x3 : Reg) : E unit :=
  opVex p_x1 (Some p_x3) (OReg p_x2) ((T_F3 ||| T_0F38) ||| T_W0) 0x5c NONE.
(* xbyak_mnemonic.h:1961 *)
Definition i_and_oo (p_op1 : Operand) (p_op2 : Operand) : E unit :=
  i_and__oo p_op1 p_op2.
(* xbyak_mnemonic.h:1962 *)
Definition i_and_oi (p_op : Operand) (p_imm : Z) : E unit :=
  let p_imm := w32 p_imm in i_and__oi p_op p_imm.
(* xbyak_mnemonic.h:1963 *)
Definition i_or_oo (p_op1 : Operand) (p_op2 : Operand) : E unit :=
  i_or__oo p_op1 p_op2.
(* xbyak_mnemonic.h:1964 *)
Definition i_or_oi (p_op : Operand) (p_imm : Z) : E unit :=
  let p_imm := w32 p_imm in i_or__oi p_op p_imm.
(* xbyak_mnemonic.h:1965 *)
Definition i_xor_oo (p_op1 : Operand) (p_op2 : Operand) : E unit :=
  i_xor__oo p_op1 p_op2.
(* xbyak_mnemonic.h:1966 *)
Definition i_xor_oi (p_op : Operand) (p_imm : Z) : E unit :=
  let p_imm := w32 p_imm in i_xor__oi p_op p_imm.
(* xbyak_mnemonic.h:1967 *)
Definition i_not (p_op : Operand) : E unit :=
  i_not__o p_op.
