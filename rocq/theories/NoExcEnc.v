(* Every encoder is well behaved in the no-exception build (see NoExc.v). *)
From Coq Require Import ZArith List Bool String Lia.
From Verif Require Import Base Types Emit Encode State Code Label Gen NoExc.
Import ListNotations.
Open Scope Z_scope.

Lemma es_ask {B} (k : Env -> E B) : (forall e, esim (k e)) -> (forall e env p, k (nxe e) env p = k e env p) -> esim (bind ask k).
Proof.
  intros H1 H2 env pos Hn. specialize (H1 env env (pos + 0) Hn). unfold bind, ask. cbn [items_size app].
  rewrite H2. destruct (k env env (pos + 0)) as [l [b|e]]; [now rewrite H1|].
  destruct (k env (nxe env) (pos + 0)) as [l' [b|e']]; auto.
Qed.
Lemma en_ask {B} (k : Env -> E B) : (forall e, enothrow (k e)) -> enothrow (bind ask k).
Proof. intros H env pos Hn. unfold bind, ask. destruct (H env env (pos + 0) Hn) as (l & a & E). cbn [items_size app]. rewrite E. eauto. Qed.
Lemma ef_ask {B} (k : Env -> E B) : (forall e, efine (k e)) -> (forall e env p, k (nxe e) env p = k e env p) -> efine (bind ask k).
Proof. intros H1 H2. split; [apply es_ask; auto; apply H1|apply en_ask; apply H1]. Qed.
Lemma ef_getCurr : efine getCurr.
Proof. split; [intros env pos Hn; reflexivity|intros env pos Hn; do 2 eexists; reflexivity]. Qed.
#[export] Hint Resolve ef_getCurr : efdb.
Ltac efs ::= intros; cbv zeta;
  lazymatch goal with
  | |- efine (fn _ _) => apply ef_fn; efs
  | |- efine (bind ask _) => apply ef_ask; [efs|reflexivity]
  | |- efine (bind _ _) => apply ef_bind; efs
  | |- efine (if ?b then _ else _) => destruct b; efs
  | |- efine (match ?x with _ => _ end) => destruct x; efs
  | |- esim (throw _) => apply es_throw
  | |- esim (bind ask _) => apply es_ask; [efs|reflexivity]
  | |- esim (bind _ _) => apply es_bind; efs
  | |- esim (if ?b then _ else _) => destruct b; efs
  | |- esim (match ?x with _ => _ end) => destruct x; efs
  | |- esim _ => first [solve [auto with efdb] | apply ef_es; efs | idtac]
  | |- efine _ => first [solve [auto with efdb] | idtac]
  end.

Lemma ef_VerifyInInt32 (x : Z) : efine (VerifyInInt32 x).
Proof. unfold VerifyInInt32. efs. Qed.
#[export] Hint Resolve ef_VerifyInInt32 : efdb.
Lemma ef_setBit (r : Reg) (bit : Z) : efine (setBit r bit).
Proof. unfold setBit. efs. Qed.
#[export] Hint Resolve ef_setBit : efdb.
Lemma ef_changeBit (r : Reg) (bit : Z) : efine (changeBit r bit).
Proof. unfold changeBit. efs. Qed.
#[export] Hint Resolve ef_changeBit : efdb.
Lemma ef_cvt8 (r : Reg) : efine (cvt8 r).
Proof. unfold cvt8. efs. Qed.
#[export] Hint Resolve ef_cvt8 : efdb.
Lemma ef_cvt16 (r : Reg) : efine (cvt16 r).
Proof. unfold cvt16. efs. Qed.
#[export] Hint Resolve ef_cvt16 : efdb.
Lemma ef_cvt32 (r : Reg) : efine (cvt32 r).
Proof. unfold cvt32. efs. Qed.
#[export] Hint Resolve ef_cvt32 : efdb.
Lemma ef_cvt64 (r : Reg) : efine (cvt64 r).
Proof. unfold cvt64. efs. Qed.
#[export] Hint Resolve ef_cvt64 : efdb.
Lemma ef_cvt128 (r : Reg) : efine (cvt128 r).
Proof. unfold cvt128. efs. Qed.
#[export] Hint Resolve ef_cvt128 : efdb.
Lemma ef_cvt256 (r : Reg) : efine (cvt256 r).
Proof. unfold cvt256. efs. Qed.
#[export] Hint Resolve ef_cvt256 : efdb.
Lemma ef_cvt512 (r : Reg) : efine (cvt512 r).
Proof. unfold cvt512. efs. Qed.
#[export] Hint Resolve ef_cvt512 : efdb.
Lemma ef_orOpmask (r k : Reg) : efine (orOpmask r k).
Proof. unfold orOpmask. efs. Qed.
#[export] Hint Resolve ef_orOpmask : efdb.
Lemma ef_orRounding (r : Reg) (rc : Z) : efine (orRounding r rc).
Proof. unfold orRounding. efs. Qed.
#[export] Hint Resolve ef_orRounding : efdb.
Lemma ef_addrOrOpmask (a : Address) (k : Reg) : efine (addrOrOpmask a k).
Proof. unfold addrOrOpmask. efs. Qed.
#[export] Hint Resolve ef_addrOrOpmask : efdb.
Lemma ef_regExpReg (r : Reg) (scale : Z) : efine (regExpReg r scale).
Proof. unfold regExpReg. efs. Qed.
#[export] Hint Resolve ef_regExpReg : efdb.
Lemma ef_verify (e : RegExp) : efine (verify e).
Proof. unfold verify. efs. Qed.
#[export] Hint Resolve ef_verify : efdb.
Lemma ef_regExpAdd (a b : RegExp) : efine (regExpAdd a b).
Proof. unfold regExpAdd. efs. Qed.
#[export] Hint Resolve ef_regExpAdd : efdb.
Lemma ef_frameAt (bit : Z) (bc : bool) (e : RegExp) : efine (frameAt bit bc e).
Proof. unfold frameAt. efs. Qed.
#[export] Hint Resolve ef_frameAt : efdb.
Lemma ef_ripAddLabel (r : RegRip) (l : LabelH) : efine (ripAddLabel r l).
Proof. unfold ripAddLabel. efs. Qed.
#[export] Hint Resolve ef_ripAddLabel : efdb.
Lemma ef_ripAddPtr (r : RegRip) (p : Z) : efine (ripAddPtr r p).
Proof. unfold ripAddPtr. efs. Qed.
#[export] Hint Resolve ef_ripAddPtr : efdb.
Lemma ef_rex2 (bit3 : bool) (rex4bit : Z) (r b x : Reg) : efine (rex2 bit3 rex4bit r b x).
Proof. unfold rex2. efs. Qed.
#[export] Hint Resolve ef_rex2 : efdb.
Lemma ef_rex (op1 op2 : Operand) (type : Z) : efine (rex op1 op2 type).
Proof. unfold rex. efs. Qed.
#[export] Hint Resolve ef_rex : efdb.
Lemma ef_vex (reg base : Reg) (v : option Reg) (type code : Z) (x : bool) : efine (vex reg base v type code x).
Proof. unfold vex. efs. Qed.
#[export] Hint Resolve ef_vex : efdb.
Lemma ef_verifySAE (r b : Reg) (type : Z) : efine (verifySAE r b type).
Proof. unfold verifySAE. efs. Qed.
#[export] Hint Resolve ef_verifySAE : efdb.
Lemma ef_verifyER (r b : Reg) (type : Z) : efine (verifyER r b type).
Proof. unfold verifyER. efs. Qed.
#[export] Hint Resolve ef_verifyER : efdb.
Lemma ef_verifyDuplicate (a b c : Z) (err : xerr) : efine (verifyDuplicate a b c err).
Proof. unfold verifyDuplicate. efs. Qed.
#[export] Hint Resolve ef_verifyDuplicate : efdb.
Lemma ef_evex (reg base : Reg) (v : option Reg) (type code : Z) (x : option Reg) (b0 : bool)
    (aaa0 VL0 : Z) (Hi16Vidx : bool) : efine (evex reg base v type code x b0 aaa0 VL0 Hi16Vidx).
Proof. unfold evex. efs. Qed.
#[export] Hint Resolve ef_evex : efdb.
Lemma ef_evexLeg (r b x v : Reg) (type sc : Z) : efine (evexLeg r b x v type sc).
Proof. unfold evexLeg. efs. Qed.
#[export] Hint Resolve ef_evexLeg : efdb.
Lemma ef_setModRM (mod_ r1 r2 : Z) : efine (setModRM mod_ r1 r2).
Proof. unfold setModRM. efs. Qed.
#[export] Hint Resolve ef_setModRM : efdb.
Lemma ef_setSIB (e : RegExp) (reg disp8N : Z) : efine (setSIB e reg disp8N).
Proof. unfold setSIB. efs. Qed.
#[export] Hint Resolve ef_setSIB : efdb.
Lemma ef_writeCode (type : Z) (r : Reg) (code : Z) (isrex2 : bool) : efine (writeCode type r code isrex2).
Proof. unfold writeCode. efs. Qed.
#[export] Hint Resolve ef_writeCode : efdb.
Lemma ef_opRR (r1 r2 : Reg) (type code : Z) : efine (opRR r1 r2 type code).
Proof. unfold opRR. efs. Qed.
#[export] Hint Resolve ef_opRR : efdb.
Lemma ef_opAddr (addr : Address) (reg : Z) : efine (opAddr addr reg).
Proof. unfold opAddr. efs. Qed.
#[export] Hint Resolve ef_opAddr : efdb.
Lemma ef_opROO (d : Reg) (op1 op2 : Operand) (type code immSize sc : Z) : efine (opROO d op1 op2 type code immSize sc).
Proof. unfold opROO. efs. Qed.
#[export] Hint Resolve ef_opROO : efdb.
Lemma ef_opMR (addr : Address) (r : Reg) (type code type2 code2 : Z) : efine (opMR addr r type code type2 code2).
Proof. unfold opMR. efs. Qed.
#[export] Hint Resolve ef_opMR : efdb.
Lemma ef_opLoadSeg (addr : Address) (reg : Reg) (type code : Z) : efine (opLoadSeg addr reg type code).
Proof. unfold opLoadSeg. efs. Qed.
#[export] Hint Resolve ef_opLoadSeg : efdb.
Lemma ef_opMIB (addr : Address) (reg : Reg) (type code : Z) : efine (opMIB addr reg type code).
Proof. unfold opMIB. efs. Qed.
#[export] Hint Resolve ef_opMIB : efdb.
Lemma ef_opRext (op : Operand) (bit ext type code : Z) (disableRex : bool) (immSize : Z)
    (d : option Reg) : efine (opRext op bit ext type code disableRex immSize d).
Proof. unfold opRext. efs. Qed.
#[export] Hint Resolve ef_opRext : efdb.
Lemma ef_opJmpOp (op : Operand) (type : LabelType) (ext : Z) : efine (opJmpOp op type ext).
Proof. unfold opJmpOp. efs. Qed.
#[export] Hint Resolve ef_opJmpOp : efdb.
Lemma ef_opRO (r : Reg) (op : Operand) (type code : Z) (condR : bool) (immSize : Z) : efine (opRO r op type code condR immSize).
Proof. unfold opRO. efs. Qed.
#[export] Hint Resolve ef_opRO : efdb.
Lemma ef_opSSE (r : Reg) (op : Operand) (type code : Z)
    (isValid : option (Operand -> Operand -> bool)) (imm8 : Z) : efine (opSSE r op type code isValid imm8).
Proof. unfold opSSE. efs. Qed.
#[export] Hint Resolve ef_opSSE : efdb.
Lemma ef_opMMX_IMM (mmx : Reg) (imm8 code ext : Z) : efine (opMMX_IMM mmx imm8 code ext).
Proof. unfold opMMX_IMM. efs. Qed.
#[export] Hint Resolve ef_opMMX_IMM : efdb.
Lemma ef_opMMX (mmx : Reg) (op : Operand) (code type pref imm8 : Z) : efine (opMMX mmx op code type pref imm8).
Proof. unfold opMMX. efs. Qed.
#[export] Hint Resolve ef_opMMX : efdb.
Lemma ef_opMovXMM (op1 op2 : Operand) (type code : Z) : efine (opMovXMM op1 op2 type code).
Proof. unfold opMovXMM. efs. Qed.
#[export] Hint Resolve ef_opMovXMM : efdb.
Lemma ef_opExt (op : Operand) (mmx : Reg) (code imm : Z) (hasMMX2 : bool) : efine (opExt op mmx code imm hasMMX2).
Proof. unfold opExt. efs. Qed.
#[export] Hint Resolve ef_opExt : efdb.
Lemma ef_opSetCC (op : Operand) (ext : Z) : efine (opSetCC op ext).
Proof. unfold opSetCC. efs. Qed.
#[export] Hint Resolve ef_opSetCC : efdb.
Lemma ef_verifyMemHasSize (op : Operand) : efine (verifyMemHasSize op).
Proof. unfold verifyMemHasSize. efs. Qed.
#[export] Hint Resolve ef_verifyMemHasSize : efdb.
Lemma ef_opShift (op : Operand) (imm ext : Z) (d : option Reg) : efine (opShift op imm ext d).
Proof. unfold opShift. efs. Qed.
#[export] Hint Resolve ef_opShift : efdb.
Lemma ef_opShiftCL (op : Operand) (cl_ : Reg) (ext : Z) (d : option Reg) : efine (opShiftCL op cl_ ext d).
Proof. unfold opShiftCL. efs. Qed.
#[export] Hint Resolve ef_opShiftCL : efdb.
Lemma ef_opShxd (d : Reg) (op : Operand) (reg : Reg) (imm code code2 : Z) (cl_ : option Reg) : efine (opShxd d op reg imm code code2 cl_).
Proof. unfold opShxd. efs. Qed.
#[export] Hint Resolve ef_opShxd : efdb.
Lemma ef_opRO_MR (op1 op2 : Operand) (code : Z) : efine (opRO_MR op1 op2 code).
Proof. unfold opRO_MR. efs. Qed.
#[export] Hint Resolve ef_opRO_MR : efdb.
Lemma ef_getImmBit (op : Operand) (imm : Z) : efine (getImmBit op imm).
Proof. unfold getImmBit. efs. Qed.
#[export] Hint Resolve ef_getImmBit : efdb.
Lemma ef_opOI (op : Operand) (imm0 code ext : Z) : efine (opOI op imm0 code ext).
Proof. unfold opOI. efs. Qed.
#[export] Hint Resolve ef_opOI : efdb.
Lemma ef_opROI (d : Reg) (op : Operand) (imm0 type ext : Z) : efine (opROI d op imm0 type ext).
Proof. unfold opROI. efs. Qed.
#[export] Hint Resolve ef_opROI : efdb.
Lemma ef_opIncDec (d : Reg) (op : Operand) (ext : Z) : efine (opIncDec d op ext).
Proof. unfold opIncDec. efs. Qed.
#[export] Hint Resolve ef_opIncDec : efdb.
Lemma ef_opPushPop (op : Operand) (code ext alt : Z) : efine (opPushPop op code ext alt).
Proof. unfold opPushPop. efs. Qed.
#[export] Hint Resolve ef_opPushPop : efdb.
Lemma ef_mov_imm (reg : Reg) (imm0 : Z) : efine (mov_imm reg imm0).
Proof. unfold mov_imm. efs. Qed.
#[export] Hint Resolve ef_mov_imm : efdb.
Lemma ef_opMovxx (reg : Reg) (op : Operand) (code : Z) : efine (opMovxx reg op code).
Proof. unfold opMovxx. efs. Qed.
#[export] Hint Resolve ef_opMovxx : efdb.
Lemma ef_opFpuMem (addr : Address) (m16 m32 m64 ext m64ext : Z) : efine (opFpuMem addr m16 m32 m64 ext m64ext).
Proof. unfold opFpuMem. efs. Qed.
#[export] Hint Resolve ef_opFpuMem : efdb.
Lemma ef_opFpuFpu (reg1 reg2 : Reg) (code1 code2 : Z) : efine (opFpuFpu reg1 reg2 code1 code2).
Proof. unfold opFpuFpu. efs. Qed.
#[export] Hint Resolve ef_opFpuFpu : efdb.
Lemma ef_opFpu (reg : Reg) (code1 code2 : Z) : efine (opFpu reg code1 code2).
Proof. unfold opFpu. efs. Qed.
#[export] Hint Resolve ef_opFpu : efdb.
Lemma ef_opVex (r : Reg) (p1 : option Reg) (op2 : Operand) (type code imm8 : Z) : efine (opVex r p1 op2 type code imm8).
Proof. unfold opVex. efs. Qed.
#[export] Hint Resolve ef_opVex : efdb.
Lemma ef_opRRO (d r1 : Reg) (op2 : Operand) (type code imm8 : Z) : efine (opRRO d r1 op2 type code imm8).
Proof. unfold opRRO. efs. Qed.
#[export] Hint Resolve ef_opRRO : efdb.
Lemma ef_opAVX_X_X_XM (x1 : Reg) (op1 op2 : Operand) (type code imm8 : Z) : efine (opAVX_X_X_XM x1 op1 op2 type code imm8).
Proof. unfold opAVX_X_X_XM. efs. Qed.
#[export] Hint Resolve ef_opAVX_X_X_XM : efdb.
Lemma ef_opAVX_K_X_XM (k x2 : Reg) (op3 : Operand) (type code imm8 : Z) : efine (opAVX_K_X_XM k x2 op3 type code imm8).
Proof. unfold opAVX_K_X_XM. efs. Qed.
#[export] Hint Resolve ef_opAVX_K_X_XM : efdb.
Lemma ef_checkCvt1 (x op : Operand) : efine (checkCvt1 x op).
Proof. unfold checkCvt1. efs. Qed.
#[export] Hint Resolve ef_checkCvt1 : efdb.
Lemma ef_checkCvt2 (x : Reg) (op : Operand) : efine (checkCvt2 x op).
Proof. unfold checkCvt2. efs. Qed.
#[export] Hint Resolve ef_checkCvt2 : efdb.
Lemma ef_opCvt (x : Reg) (op : Operand) (type code : Z) : efine (opCvt x op type code).
Proof. unfold opCvt. efs. Qed.
#[export] Hint Resolve ef_opCvt : efdb.
Lemma ef_opCvt2 (x : Reg) (op : Operand) (type code : Z) : efine (opCvt2 x op type code).
Proof. unfold opCvt2. efs. Qed.
#[export] Hint Resolve ef_opCvt2 : efdb.
Lemma ef_opCvt3 (x1 x2 : Reg) (op : Operand) (type type64 type32 code : Z) : efine (opCvt3 x1 x2 op type type64 type32 code).
Proof. unfold opCvt3. efs. Qed.
#[export] Hint Resolve ef_opCvt3 : efdb.
Lemma ef_checkCvt4 (x : Reg) (op : Operand) : efine (checkCvt4 x op).
Proof. unfold checkCvt4. efs. Qed.
#[export] Hint Resolve ef_checkCvt4 : efdb.
Lemma ef_opCvt5 (x : Reg) (op : Operand) (type code : Z) : efine (opCvt5 x op type code).
Proof. unfold opCvt5. efs. Qed.
#[export] Hint Resolve ef_opCvt5 : efdb.
Lemma ef_opCvt6 (x1 x2 : Reg) (op : Operand) (type code : Z) : efine (opCvt6 x1 x2 op type code).
Proof. unfold opCvt6. efs. Qed.
#[export] Hint Resolve ef_opCvt6 : efdb.
Lemma ef_opAVX_X_XM_IMM (x : Reg) (op : Operand) (type code imm8 : Z) : efine (opAVX_X_XM_IMM x op type code imm8).
Proof. unfold opAVX_X_XM_IMM. efs. Qed.
#[export] Hint Resolve ef_opAVX_X_XM_IMM : efdb.
Lemma ef_opCnt (reg : Reg) (op : Operand) (code : Z) : efine (opCnt reg op code).
Proof. unfold opCnt. efs. Qed.
#[export] Hint Resolve ef_opCnt : efdb.
Lemma ef_opGather (x1 : Reg) (addr : Address) (x2 : Reg) (type code mode : Z) : efine (opGather x1 addr x2 type code mode).
Proof. unfold opGather. efs. Qed.
#[export] Hint Resolve ef_opGather : efdb.
Lemma ef_checkGather2 (x1 x2 : Reg) (mode : Z) : efine (checkGather2 x1 x2 mode).
Proof. unfold checkGather2. efs. Qed.
#[export] Hint Resolve ef_checkGather2 : efdb.
Lemma ef_opGather2 (x : Reg) (addr : Address) (type code mode : Z) : efine (opGather2 x addr type code mode).
Proof. unfold opGather2. efs. Qed.
#[export] Hint Resolve ef_opGather2 : efdb.
Lemma ef_opVmov (op : Operand) (x : Reg) (type code : Z) (mode : bool) : efine (opVmov op x type code mode).
Proof. unfold opVmov. efs. Qed.
#[export] Hint Resolve ef_opVmov : efdb.
Lemma ef_opGatherFetch (addr : Address) (x : Reg) (type code kind : Z) : efine (opGatherFetch addr x type code kind).
Proof. unfold opGatherFetch. efs. Qed.
#[export] Hint Resolve ef_opGatherFetch : efdb.
Lemma ef_getEncoding (enc : PreferredEncoding) (sel : Z) : efine (getEncoding enc sel).
Proof. unfold getEncoding. efs. Qed.
#[export] Hint Resolve ef_getEncoding : efdb.
Lemma ef_orEvexIf (enc : PreferredEncoding) (typeVex typeEvex sel : Z) : efine (orEvexIf enc typeVex typeEvex sel).
Proof. unfold orEvexIf. efs. Qed.
#[export] Hint Resolve ef_orEvexIf : efdb.
Lemma ef_opEncoding (x1 x2 : Reg) (op : Operand) (type code : Z) (enc : PreferredEncoding)
    (imm typeVex typeEvex sel : Z) : efine (opEncoding x1 x2 op type code enc imm typeVex typeEvex sel).
Proof. unfold opEncoding. efs. Qed.
#[export] Hint Resolve ef_opEncoding : efdb.
Lemma ef_opInOut (a d : Reg) (code : Z) : efine (opInOut a d code).
Proof. unfold opInOut. efs. Qed.
#[export] Hint Resolve ef_opInOut : efdb.
Lemma ef_opInOutImm (a : Reg) (code v : Z) : efine (opInOutImm a code v).
Proof. unfold opInOutImm. efs. Qed.
#[export] Hint Resolve ef_opInOutImm : efdb.
Lemma ef_opCcmp (op1 op2 : Operand) (dfv code sc : Z) : efine (opCcmp op1 op2 dfv code sc).
Proof. unfold opCcmp. efs. Qed.
#[export] Hint Resolve ef_opCcmp : efdb.
Lemma ef_opCcmpi (op : Operand) (imm dfv sc : Z) : efine (opCcmpi op imm dfv sc).
Proof. unfold opCcmpi. efs. Qed.
#[export] Hint Resolve ef_opCcmpi : efdb.
Lemma ef_opTesti (op : Operand) (imm dfv sc : Z) : efine (opTesti op imm dfv sc).
Proof. unfold opTesti. efs. Qed.
#[export] Hint Resolve ef_opTesti : efdb.
Lemma ef_opCfcmov (d : Reg) (op1 op2 : Operand) (code : Z) : efine (opCfcmov d op1 op2 code).
Proof. unfold opCfcmov. efs. Qed.
#[export] Hint Resolve ef_opCfcmov : efdb.
Lemma ef_opAMX (t1 : Reg) (addr : Address) (type code : Z) : efine (opAMX t1 addr type code).
Proof. unfold opAMX. efs. Qed.
#[export] Hint Resolve ef_opAMX : efdb.
Lemma ef_opKmov (k : Reg) (op : Operand) (rev : bool) (size : Z) : efine (opKmov k op rev size).
Proof. unfold opKmov. efs. Qed.
#[export] Hint Resolve ef_opKmov : efdb.
Lemma ef_opEncodeKey (r1 r2 : Reg) (code1 code2 : Z) : efine (opEncodeKey r1 r2 code1 code2).
Proof. unfold opEncodeKey. efs. Qed.
#[export] Hint Resolve ef_opEncodeKey : efdb.
Lemma ef_opSSE_APX (x : Reg) (op : Operand) (type1 code1 type2 code2 imm : Z) : efine (opSSE_APX x op type1 code1 type2 code2 imm).
Proof. unfold opSSE_APX. efs. Qed.
#[export] Hint Resolve ef_opSSE_APX : efdb.
Lemma ef_opAVX10ZeroExt (op1 op2 : Operand) (typeTbl codeTbl : list Z) (enc : PreferredEncoding) (bit : Z) : efine (opAVX10ZeroExt op1 op2 typeTbl codeTbl enc bit).
Proof. unfold opAVX10ZeroExt. efs. Qed.
#[export] Hint Resolve ef_opAVX10ZeroExt : efdb.
Lemma ef_jmp_op (op : Operand) (type : LabelType) : efine (jmp_op op type).
Proof. unfold jmp_op. efs. Qed.
#[export] Hint Resolve ef_jmp_op : efdb.
Lemma ef_call_op (op : Operand) (type : LabelType) : efine (call_op op type).
Proof. unfold call_op. efs. Qed.
#[export] Hint Resolve ef_call_op : efdb.
Lemma ef_test_ (op : Operand) (reg : Reg) : efine (test_ op reg).
Proof. unfold test_. efs. Qed.
#[export] Hint Resolve ef_test_ : efdb.
Lemma ef_test_imm (op : Operand) (imm0 : Z) : efine (test_imm op imm0).
Proof. unfold test_imm. efs. Qed.
#[export] Hint Resolve ef_test_imm : efdb.
Lemma ef_imul_imm (reg : Reg) (op : Operand) (imm : Z) : efine (imul_imm reg op imm).
Proof. unfold imul_imm. efs. Qed.
#[export] Hint Resolve ef_imul_imm : efdb.
Lemma ef_push_op (op : Operand) : efine (push_op op).
Proof. unfold push_op. efs. Qed.
#[export] Hint Resolve ef_push_op : efdb.
Lemma ef_pop_op (op : Operand) : efine (pop_op op).
Proof. unfold pop_op. efs. Qed.
#[export] Hint Resolve ef_pop_op : efdb.
Lemma ef_push_af (afbit imm : Z) : efine (push_af afbit imm).
Proof. unfold push_af. efs. Qed.
#[export] Hint Resolve ef_push_af : efdb.
Lemma ef_push_imm (imm0 : Z) : efine (push_imm imm0).
Proof. unfold push_imm. efs. Qed.
#[export] Hint Resolve ef_push_imm : efdb.
Lemma ef_mov_oo (op1 op2 : Operand) : efine (mov_oo op1 op2).
Proof. unfold mov_oo. efs. Qed.
#[export] Hint Resolve ef_mov_oo : efdb.
Lemma ef_mov_oi (op : Operand) (imm0 : Z) : efine (mov_oi op imm0).
Proof. unfold mov_oi. efs. Qed.
#[export] Hint Resolve ef_mov_oi : efdb.
Lemma ef_mov_label (reg : Reg) (l : LabelRef) : efine (mov_label reg l).
Proof. unfold mov_label. efs. Qed.
#[export] Hint Resolve ef_mov_label : efdb.
Lemma ef_xchg (op1 op2 : Operand) : efine (xchg op1 op2).
Proof. unfold xchg. efs. Qed.
#[export] Hint Resolve ef_xchg : efdb.
Lemma ef_push_seg (s : Segment) : efine (push_seg s).
Proof. unfold push_seg. efs. Qed.
#[export] Hint Resolve ef_push_seg : efdb.
Lemma ef_pop_seg (s : Segment) : efine (pop_seg s).
Proof. unfold pop_seg. efs. Qed.
#[export] Hint Resolve ef_pop_seg : efdb.
Lemma ef_putSeg (s : Segment) : efine (putSeg s).
Proof. unfold putSeg. efs. Qed.
#[export] Hint Resolve ef_putSeg : efdb.
Lemma ef_mov_o_seg (op : Operand) (s : Segment) : efine (mov_o_seg op s).
Proof. unfold mov_o_seg. efs. Qed.
#[export] Hint Resolve ef_mov_o_seg : efdb.
Lemma ef_mov_seg_o (s : Segment) (op : Operand) : efine (mov_seg_o s op).
Proof. unfold mov_seg_o. efs. Qed.
#[export] Hint Resolve ef_mov_seg_o : efdb.
Lemma ef_bswap (r : Reg) : efine (bswap r).
Proof. unfold bswap. efs. Qed.
#[export] Hint Resolve ef_bswap : efdb.
Lemma ef_vmovd (op1 op2 : Operand) (enc : PreferredEncoding) : efine (vmovd op1 op2 enc).
Proof. unfold vmovd. efs. Qed.
#[export] Hint Resolve ef_vmovd : efdb.
Lemma ef_vmovw (op1 op2 : Operand) (enc : PreferredEncoding) : efine (vmovw op1 op2 enc).
Proof. unfold vmovw. efs. Qed.
#[export] Hint Resolve ef_vmovw : efdb.
Lemma ef_nop_loop (fuel : nat) (size : Z) : efine (nop_loop fuel size).
Proof. revert size. induction fuel; intros; cbn [nop_loop]; efs. Qed.
#[export] Hint Resolve ef_nop_loop : efdb.
Lemma ef_nop (size : Z) (useMultiByteNop : bool) : efine (nop size useMultiByteNop).
Proof. unfold nop. efs. Qed.
#[export] Hint Resolve ef_nop : efdb.
Lemma ef_align (pageSize x : Z) (useMultiByteNop : bool) : efine (align pageSize x useMultiByteNop).
Proof. unfold align. efs. Qed.
#[export] Hint Resolve ef_align : efdb.
