(* The instruction methods of CodeGenerator, xbyak/xbyak_mnemonic.h, one Definition per method.
   Produced by tools/mnemonic.py from the header; the XBYAK_ENABLE_OMITTED_OPERAND section.
   Built with XBYAK32 (tools/mnemonic.py --32): only the methods that depend on the build; the others
   are those of Mnemonic.v, MnemonicAvx.v and MnemonicOmit.v.
   Integer arguments are wrapped to their C++ parameter type on entry.  Overloads carry a suffix
   of parameter classes (r Reg, b/w/d/q/e Reg8..Reg64/Reg32e, m Mmx, x y z t, k Opmask, n bound,
   f Fpu, o Operand, a Address, i integer, j LabelType, p PreferredEncoding, s label, v pointer);
   the const char * and Label overloads of jumps have the same body as the std::string one. *)
From Coq Require Import ZArith List Bool String.
From Verif Require Import Base Types Emit Encode Mnemonic MnemonicAvx MnemonicOmit Encode32 Mnemonic32 MnemonicAvx32.
Import ListNotations.
Open Scope Z_scope.

(* xbyak_mnemonic.h:1600 *)
Definition i_vblendpd_xoi (p_x : Reg) (p_op : Operand) (p_imm : Z) : E unit :=
  let p_imm := w8 p_imm in i_vblendpd_xxoi p_x p_x p_op p_imm.
(* xbyak_mnemonic.h:1601 *)
Definition i_vblendps_xoi (p_x : Reg) (p_op : Operand) (p_imm : Z) : E unit :=
  let p_imm := w8 p_imm in i_vblendps_xxoi p_x p_x p_op p_imm.
(* xbyak_mnemonic.h:1602 *)
Definition i_vblendvpd_xox (p_x1 : Reg) (p_op : Operand) (p_x4 : Reg) : E unit :=
  i_vblendvpd_xxox p_x1 p_x1 p_op p_x4.
(* xbyak_mnemonic.h:1603 *)
Definition i_vblendvps_xox (p_x1 : Reg) (p_op : Operand) (p_x4 : Reg) : E unit :=
  i_vblendvps_xxox p_x1 p_x1 p_op p_x4.
(* xbyak_mnemonic.h:1604 *)
Definition i_vcmpeq_ospd_xo (p_x : Reg) (p_op : Operand) : E unit :=
  i_vcmpeq_ospd_xxo p_x p_x p_op.
(* xbyak_mnemonic.h:1605 *)
Definition i_vcmpeq_osps_xo (p_x : Reg) (p_op : Operand) : E unit :=
  i_vcmpeq_osps_xxo p_x p_x p_op.
(* xbyak_mnemonic.h:1606 *)
Definition i_vcmpeq_ossd_xo (p_x : Reg) (p_op : Operand) : E unit :=
  i_vcmpeq_ossd_xxo p_x p_x p_op.
(* xbyak_mnemonic.h:1607 *)
Definition i_vcmpeq_osss_xo (p_x : Reg) (p_op : Operand) : E unit :=
  i_vcmpeq_osss_xxo p_x p_x p_op.
(* xbyak_mnemonic.h:1608 *)
Definition i_vcmpeq_uqpd_xo (p_x : Reg) (p_op : Operand) : E unit :=
  i_vcmpeq_uqpd_xxo p_x p_x p_op.
(* xbyak_mnemonic.h:1609 *)
Definition i_vcmpeq_uqps_xo (p_x : Reg) (p_op : Operand) : E unit :=
  i_vcmpeq_uqps_xxo p_x p_x p_op.
(* xbyak_mnemonic.h:1610 *)
Definition i_vcmpeq_uqsd_xo (p_x : Reg) (p_op : Operand) : E unit :=
  i_vcmpeq_uqsd_xxo p_x p_x p_op.
(* xbyak_mnemonic.h:1611 *)
Definition i_vcmpeq_uqss_xo (p_x : Reg) (p_op : Operand) : E unit :=
  i_vcmpeq_uqss_xxo p_x p_x p_op.
(* xbyak_mnemonic.h:1612 *)
Definition i_vcmpeq_uspd_xo (p_x : Reg) (p_op : Operand) : E unit :=
  i_vcmpeq_uspd_xxo p_x p_x p_op.
(* xbyak_mnemonic.h:1613 *)
Definition i_vcmpeq_usps_xo (p_x : Reg) (p_op : Operand) : E unit :=
  i_vcmpeq_usps_xxo p_x p_x p_op.
(* xbyak_mnemonic.h:1614 *)
Definition i_vcmpeq_ussd_xo (p_x : Reg) (p_op : Operand) : E unit :=
  i_vcmpeq_ussd_xxo p_x p_x p_op.
(* xbyak_mnemonic.h:1615 *)
Definition i_vcmpeq_usss_xo (p_x : Reg) (p_op : Operand) : E unit :=
  i_vcmpeq_usss_xxo p_x p_x p_op.
(* xbyak_mnemonic.h:1616 *)
Definition i_vcmpeqpd_xo (p_x : Reg) (p_op : Operand) : E unit :=
  i_vcmpeqpd_xxo p_x p_x p_op.
(* xbyak_mnemonic.h:1617 *)
Definition i_vcmpeqps_xo (p_x : Reg) (p_op : Operand) : E unit :=
  i_vcmpeqps_xxo p_x p_x p_op.
(* xbyak_mnemonic.h:1618 *)
Definition i_vcmpeqsd_xo (p_x : Reg) (p_op : Operand) : E unit :=
  i_vcmpeqsd_xxo p_x p_x p_op.
(* xbyak_mnemonic.h:1619 *)
Definition i_vcmpeqss_xo (p_x : Reg) (p_op : Operand) : E unit :=
  i_vcmpeqss_xxo p_x p_x p_op.
(* xbyak_mnemonic.h:1620 *)
Definition i_vcmpfalse_ospd_xo (p_x : Reg) (p_op : Operand) : E unit :=
  i_vcmpfalse_ospd_xxo p_x p_x p_op.
(* xbyak_mnemonic.h:1621 *)
Definition i_vcmpfalse_osps_xo (p_x : Reg) (p_op : Operand) : E unit :=
  i_vcmpfalse_osps_xxo p_x p_x p_op.
(* xbyak_mnemonic.h:1622 *)
Definition i_vcmpfalse_ossd_xo (p_x : Reg) (p_op : Operand) : E unit :=
  i_vcmpfalse_ossd_xxo p_x p_x p_op.
(* xbyak_mnemonic.h:1623 *)
Definition i_vcmpfalse_osss_xo (p_x : Reg) (p_op : Operand) : E unit :=
  i_vcmpfalse_osss_xxo p_x p_x p_op.
(* xbyak_mnemonic.h:1624 *)
Definition i_vcmpfalsepd_xo (p_x : Reg) (p_op : Operand) : E unit :=
  i_vcmpfalsepd_xxo p_x p_x p_op.
(* xbyak_mnemonic.h:1625 *)
Definition i_vcmpfalseps_xo (p_x : Reg) (p_op : Operand) : E unit :=
  i_vcmpfalseps_xxo p_x p_x p_op.
(* xbyak_mnemonic.h:1626 *)
Definition i_vcmpfalsesd_xo (p_x : Reg) (p_op : Operand) : E unit :=
  i_vcmpfalsesd_xxo p_x p_x p_op.
(* xbyak_mnemonic.h:1627 *)
Definition i_vcmpfalsess_xo (p_x : Reg) (p_op : Operand) : E unit :=
  i_vcmpfalsess_xxo p_x p_x p_op.
(* xbyak_mnemonic.h:1628 *)
Definition i_vcmpge_oqpd_xo (p_x : Reg) (p_op : Operand) : E unit :=
  i_vcmpge_oqpd_xxo p_x p_x p_op.
(* xbyak_mnemonic.h:1629 *)
Definition i_vcmpge_oqps_xo (p_x : Reg) (p_op : Operand) : E unit :=
  i_vcmpge_oqps_xxo p_x p_x p_op.
(* xbyak_mnemonic.h:1630 *)
Definition i_vcmpge_oqsd_xo (p_x : Reg) (p_op : Operand) : E unit :=
  i_vcmpge_oqsd_xxo p_x p_x p_op.
(* xbyak_mnemonic.h:1631 *)
Definition i_vcmpge_oqss_xo (p_x : Reg) (p_op : Operand) : E unit :=
  i_vcmpge_oqss_xxo p_x p_x p_op.
(* xbyak_mnemonic.h:1632 *)
Definition i_vcmpgepd_xo (p_x : Reg) (p_op : Operand) : E unit :=
  i_vcmpgepd_xxo p_x p_x p_op.
(* xbyak_mnemonic.h:1633 *)
Definition i_vcmpgeps_xo (p_x : Reg) (p_op : Operand) : E unit :=
  i_vcmpgeps_xxo p_x p_x p_op.
(* xbyak_mnemonic.h:1634 *)
Definition i_vcmpgesd_xo (p_x : Reg) (p_op : Operand) : E unit :=
  i_vcmpgesd_xxo p_x p_x p_op.
(* xbyak_mnemonic.h:1635 *)
Definition i_vcmpgess_xo (p_x : Reg) (p_op : Operand) : E unit :=
  i_vcmpgess_xxo p_x p_x p_op.
(* xbyak_mnemonic.h:1636 *)
Definition i_vcmpgt_oqpd_xo (p_x : Reg) (p_op : Operand) : E unit :=
  i_vcmpgt_oqpd_xxo p_x p_x p_op.
(* xbyak_mnemonic.h:1637 *)
Definition i_vcmpgt_oqps_xo (p_x : Reg) (p_op : Operand) : E unit :=
  i_vcmpgt_oqps_xxo p_x p_x p_op.
(* xbyak_mnemonic.h:1638 *)
Definition i_vcmpgt_oqsd_xo (p_x : Reg) (p_op : Operand) : E unit :=
  i_vcmpgt_oqsd_xxo p_x p_x p_op.
(* xbyak_mnemonic.h:1639 *)
Definition i_vcmpgt_oqss_xo (p_x : Reg) (p_op : Operand) : E unit :=
  i_vcmpgt_oqss_xxo p_x p_x p_op.
(* xbyak_mnemonic.h:1640 *)
Definition i_vcmpgtpd_xo (p_x : Reg) (p_op : Operand) : E unit :=
  i_vcmpgtpd_xxo p_x p_x p_op.
(* xbyak_mnemonic.h:1641 *)
Definition i_vcmpgtps_xo (p_x : Reg) (p_op : Operand) : E unit :=
  i_vcmpgtps_xxo p_x p_x p_op.
(* xbyak_mnemonic.h:1642 *)
Definition i_vcmpgtsd_xo (p_x : Reg) (p_op : Operand) : E unit :=
  i_vcmpgtsd_xxo p_x p_x p_op.
(* xbyak_mnemonic.h:1643 *)
Definition i_vcmpgtss_xo (p_x : Reg) (p_op : Operand) : E unit :=
  i_vcmpgtss_xxo p_x p_x p_op.
(* xbyak_mnemonic.h:1644 *)
Definition i_vcmple_oqpd_xo (p_x : Reg) (p_op : Operand) : E unit :=
  i_vcmple_oqpd_xxo p_x p_x p_op.
(* xbyak_mnemonic.h:1645 *)
Definition i_vcmple_oqps_xo (p_x : Reg) (p_op : Operand) : E unit :=
  i_vcmple_oqps_xxo p_x p_x p_op.
(* xbyak_mnemonic.h:1646 *)
Definition i_vcmple_oqsd_xo (p_x : Reg) (p_op : Operand) : E unit :=
  i_vcmple_oqsd_xxo p_x p_x p_op.
(* xbyak_mnemonic.h:1647 *)
Definition i_vcmple_oqss_xo (p_x : Reg) (p_op : Operand) : E unit :=
  i_vcmple_oqss_xxo p_x p_x p_op.
(* xbyak_mnemonic.h:1648 *)
Definition i_vcmplepd_xo (p_x : Reg) (p_op : Operand) : E unit :=
  i_vcmplepd_xxo p_x p_x p_op.
(* xbyak_mnemonic.h:1649 *)
Definition i_vcmpleps_xo (p_x : Reg) (p_op : Operand) : E unit :=
  i_vcmpleps_xxo p_x p_x p_op.
(* xbyak_mnemonic.h:1650 *)
Definition i_vcmplesd_xo (p_x : Reg) (p_op : Operand) : E unit :=
  i_vcmplesd_xxo p_x p_x p_op.
(* xbyak_mnemonic.h:1651 *)
Definition i_vcmpless_xo (p_x : Reg) (p_op : Operand) : E unit :=
  i_vcmpless_xxo p_x p_x p_op.
(* xbyak_mnemonic.h:1652 *)
Definition i_vcmplt_oqpd_xo (p_x : Reg) (p_op : Operand) : E unit :=
  i_vcmplt_oqpd_xxo p_x p_x p_op.
(* xbyak_mnemonic.h:1653 *)
Definition i_vcmplt_oqps_xo (p_x : Reg) (p_op : Operand) : E unit :=
  i_vcmplt_oqps_xxo p_x p_x p_op.
(* xbyak_mnemonic.h:1654 *)
Definition i_vcmplt_oqsd_xo (p_x : Reg) (p_op : Operand) : E unit :=
  i_vcmplt_oqsd_xxo p_x p_x p_op.
(* xbyak_mnemonic.h:1655 *)
Definition i_vcmplt_oqss_xo (p_x : Reg) (p_op : Operand) : E unit :=
  i_vcmplt_oqss_xxo p_x p_x p_op.
(* xbyak_mnemonic.h:1656 *)
Definition i_vcmpltpd_xo (p_x : Reg) (p_op : Operand) : E unit :=
  i_vcmpltpd_xxo p_x p_x p_op.
(* xbyak_mnemonic.h:1657 *)
Definition i_vcmpltps_xo (p_x : Reg) (p_op : Operand) : E unit :=
  i_vcmpltps_xxo p_x p_x p_op.
(* xbyak_mnemonic.h:1658 *)
Definition i_vcmpltsd_xo (p_x : Reg) (p_op : Operand) : E unit :=
  i_vcmpltsd_xxo p_x p_x p_op.
(* xbyak_mnemonic.h:1659 *)
Definition i_vcmpltss_xo (p_x : Reg) (p_op : Operand) : E unit :=
  i_vcmpltss_xxo p_x p_x p_op.
(* xbyak_mnemonic.h:1660 *)
Definition i_vcmpneq_oqpd_xo (p_x : Reg) (p_op : Operand) : E unit :=
  i_vcmpneq_oqpd_xxo p_x p_x p_op.
(* xbyak_mnemonic.h:1661 *)
Definition i_vcmpneq_oqps_xo (p_x : Reg) (p_op : Operand) : E unit :=
  i_vcmpneq_oqps_xxo p_x p_x p_op.
(* xbyak_mnemonic.h:1662 *)
Definition i_vcmpneq_oqsd_xo (p_x : Reg) (p_op : Operand) : E unit :=
  i_vcmpneq_oqsd_xxo p_x p_x p_op.
(* xbyak_mnemonic.h:1663 *)
Definition i_vcmpneq_oqss_xo (p_x : Reg) (p_op : Operand) : E unit :=
  i_vcmpneq_oqss_xxo p_x p_x p_op.
(* xbyak_mnemonic.h:1664 *)
Definition i_vcmpneq_ospd_xo (p_x : Reg) (p_op : Operand) : E unit :=
  i_vcmpneq_ospd_xxo p_x p_x p_op.
(* xbyak_mnemonic.h:1665 *)
Definition i_vcmpneq_osps_xo (p_x : Reg) (p_op : Operand) : E unit :=
  i_vcmpneq_osps_xxo p_x p_x p_op.
(* xbyak_mnemonic.h:1666 *)
Definition i_vcmpneq_ossd_xo (p_x : Reg) (p_op : Operand) : E unit :=
  i_vcmpneq_ossd_xxo p_x p_x p_op.
(* xbyak_mnemonic.h:1667 *)
Definition i_vcmpneq_osss_xo (p_x : Reg) (p_op : Operand) : E unit :=
  i_vcmpneq_osss_xxo p_x p_x p_op.
(* xbyak_mnemonic.h:1668 *)
Definition i_vcmpneq_uspd_xo (p_x : Reg) (p_op : Operand) : E unit :=
  i_vcmpneq_uspd_xxo p_x p_x p_op.
(* xbyak_mnemonic.h:1669 *)
Definition i_vcmpneq_usps_xo (p_x : Reg) (p_op : Operand) : E unit :=
  i_vcmpneq_usps_xxo p_x p_x p_op.
(* xbyak_mnemonic.h:1670 *)
Definition i_vcmpneq_ussd_xo (p_x : Reg) (p_op : Operand) : E unit :=
  i_vcmpneq_ussd_xxo p_x p_x p_op.
(* xbyak_mnemonic.h:1671 *)
Definition i_vcmpneq_usss_xo (p_x : Reg) (p_op : Operand) : E unit :=
  i_vcmpneq_usss_xxo p_x p_x p_op.
(* xbyak_mnemonic.h:1672 *)
Definition i_vcmpneqpd_xo (p_x : Reg) (p_op : Operand) : E unit :=
  i_vcmpneqpd_xxo p_x p_x p_op.
(* xbyak_mnemonic.h:1673 *)
Definition i_vcmpneqps_xo (p_x : Reg) (p_op : Operand) : E unit :=
  i_vcmpneqps_xxo p_x p_x p_op.
(* xbyak_mnemonic.h:1674 *)
Definition i_vcmpneqsd_xo (p_x : Reg) (p_op : Operand) : E unit :=
  i_vcmpneqsd_xxo p_x p_x p_op.
(* xbyak_mnemonic.h:1675 *)
Definition i_vcmpneqss_xo (p_x : Reg) (p_op : Operand) : E unit :=
  i_vcmpneqss_xxo p_x p_x p_op.
(* xbyak_mnemonic.h:1676 *)
Definition i_vcmpnge_uqpd_xo (p_x : Reg) (p_op : Operand) : E unit :=
  i_vcmpnge_uqpd_xxo p_x p_x p_op.
(* xbyak_mnemonic.h:1677 *)
Definition i_vcmpnge_uqps_xo (p_x : Reg) (p_op : Operand) : E unit :=
  i_vcmpnge_uqps_xxo p_x p_x p_op.
(* xbyak_mnemonic.h:1678 *)
Definition i_vcmpnge_uqsd_xo (p_x : Reg) (p_op : Operand) : E unit :=
  i_vcmpnge_uqsd_xxo p_x p_x p_op.
(* xbyak_mnemonic.h:1679 *)
Definition i_vcmpnge_uqss_xo (p_x : Reg) (p_op : Operand) : E unit :=
  i_vcmpnge_uqss_xxo p_x p_x p_op.
(* xbyak_mnemonic.h:1680 *)
Definition i_vcmpngepd_xo (p_x : Reg) (p_op : Operand) : E unit :=
  i_vcmpngepd_xxo p_x p_x p_op.
(* xbyak_mnemonic.h:1681 *)
Definition i_vcmpngeps_xo (p_x : Reg) (p_op : Operand) : E unit :=
  i_vcmpngeps_xxo p_x p_x p_op.
(* xbyak_mnemonic.h:1682 *)
Definition i_vcmpngesd_xo (p_x : Reg) (p_op : Operand) : E unit :=
  i_vcmpngesd_xxo p_x p_x p_op.
(* xbyak_mnemonic.h:1683 *)
Definition i_vcmpngess_xo (p_x : Reg) (p_op : Operand) : E unit :=
  i_vcmpngess_xxo p_x p_x p_op.
(* xbyak_mnemonic.h:1684 *)
Definition i_vcmpngt_uqpd_xo (p_x : Reg) (p_op : Operand) : E unit :=
  i_vcmpngt_uqpd_xxo p_x p_x p_op.
(* xbyak_mnemonic.h:1685 *)
Definition i_vcmpngt_uqps_xo (p_x : Reg) (p_op : Operand) : E unit :=
  i_vcmpngt_uqps_xxo p_x p_x p_op.
(* xbyak_mnemonic.h:1686 *)
Definition i_vcmpngt_uqsd_xo (p_x : Reg) (p_op : Operand) : E unit :=
  i_vcmpngt_uqsd_xxo p_x p_x p_op.
(* xbyak_mnemonic.h:1687 *)
Definition i_vcmpngt_uqss_xo (p_x : Reg) (p_op : Operand) : E unit :=
  i_vcmpngt_uqss_xxo p_x p_x p_op.
(* xbyak_mnemonic.h:1688 *)
Definition i_vcmpngtpd_xo (p_x : Reg) (p_op : Operand) : E unit :=
  i_vcmpngtpd_xxo p_x p_x p_op.
(* xbyak_mnemonic.h:1689 *)
Definition i_vcmpngtps_xo (p_x : Reg) (p_op : Operand) : E unit :=
  i_vcmpngtps_xxo p_x p_x p_op.
(* xbyak_mnemonic.h:1690 *)
Definition i_vcmpngtsd_xo (p_x : Reg) (p_op : Operand) : E unit :=
  i_vcmpngtsd_xxo p_x p_x p_op.
(* xbyak_mnemonic.h:1691 *)
Definition i_vcmpngtss_xo (p_x : Reg) (p_op : Operand) : E unit :=
  i_vcmpngtss_xxo p_x p_x p_op.
(* xbyak_mnemonic.h:1692 *)
Definition i_vcmpnle_uqpd_xo (p_x : Reg) (p_op : Operand) : E unit :=
  i_vcmpnle_uqpd_xxo p_x p_x p_op.
(* xbyak_mnemonic.h:1693 *)
Definition i_vcmpnle_uqps_xo (p_x : Reg) (p_op : Operand) : E unit :=
  i_vcmpnle_uqps_xxo p_x p_x p_op.
(* xbyak_mnemonic.h:1694 *)
Definition i_vcmpnle_uqsd_xo (p_x : Reg) (p_op : Operand) : E unit :=
  i_vcmpnle_uqsd_xxo p_x p_x p_op.
(* xbyak_mnemonic.h:1695 *)
Definition i_vcmpnle_uqss_xo (p_x : Reg) (p_op : Operand) : E unit :=
  i_vcmpnle_uqss_xxo p_x p_x p_op.
(* xbyak_mnemonic.h:1696 *)
Definition i_vcmpnlepd_xo (p_x : Reg) (p_op : Operand) : E unit :=
  i_vcmpnlepd_xxo p_x p_x p_op.
(* xbyak_mnemonic.h:1697 *)
Definition i_vcmpnleps_xo (p_x : Reg) (p_op : Operand) : E unit :=
  i_vcmpnleps_xxo p_x p_x p_op.
(* xbyak_mnemonic.h:1698 *)
Definition i_vcmpnlesd_xo (p_x : Reg) (p_op : Operand) : E unit :=
  i_vcmpnlesd_xxo p_x p_x p_op.
(* xbyak_mnemonic.h:1699 *)
Definition i_vcmpnless_xo (p_x : Reg) (p_op : Operand) : E unit :=
  i_vcmpnless_xxo p_x p_x p_op.
(* xbyak_mnemonic.h:1700 *)
Definition i_vcmpnlt_uqpd_xo (p_x : Reg) (p_op : Operand) : E unit :=
  i_vcmpnlt_uqpd_xxo p_x p_x p_op.
(* xbyak_mnemonic.h:1701 *)
Definition i_vcmpnlt_uqps_xo (p_x : Reg) (p_op : Operand) : E unit :=
  i_vcmpnlt_uqps_xxo p_x p_x p_op.
(* xbyak_mnemonic.h:1702 *)
Definition i_vcmpnlt_uqsd_xo (p_x : Reg) (p_op : Operand) : E unit :=
  i_vcmpnlt_uqsd_xxo p_x p_x p_op.
(* xbyak_mnemonic.h:1703 *)
Definition i_vcmpnlt_uqss_xo (p_x : Reg) (p_op : Operand) : E unit :=
  i_vcmpnlt_uqss_xxo p_x p_x p_op.
(* xbyak_mnemonic.h:1704 *)
Definition i_vcmpnltpd_xo (p_x : Reg) (p_op : Operand) : E unit :=
  i_vcmpnltpd_xxo p_x p_x p_op.
(* xbyak_mnemonic.h:1705 *)
Definition i_vcmpnltps_xo (p_x : Reg) (p_op : Operand) : E unit :=
  i_vcmpnltps_xxo p_x p_x p_op.
(* xbyak_mnemonic.h:1706 *)
Definition i_vcmpnltsd_xo (p_x : Reg) (p_op : Operand) : E unit :=
  i_vcmpnltsd_xxo p_x p_x p_op.
(* xbyak_mnemonic.h:1707 *)
Definition i_vcmpnltss_xo (p_x : Reg) (p_op : Operand) : E unit :=
  i_vcmpnltss_xxo p_x p_x p_op.
(* xbyak_mnemonic.h:1708 *)
Definition i_vcmpord_spd_xo (p_x : Reg) (p_op : Operand) : E unit :=
  i_vcmpord_spd_xxo p_x p_x p_op.
(* xbyak_mnemonic.h:1709 *)
Definition i_vcmpord_sps_xo (p_x : Reg) (p_op : Operand) : E unit :=
  i_vcmpord_sps_xxo p_x p_x p_op.
(* xbyak_mnemonic.h:1710 *)
Definition i_vcmpord_ssd_xo (p_x : Reg) (p_op : Operand) : E unit :=
  i_vcmpord_ssd_xxo p_x p_x p_op.
(* xbyak_mnemonic.h:1711 *)
Definition i_vcmpord_sss_xo (p_x : Reg) (p_op : Operand) : E unit :=
  i_vcmpord_sss_xxo p_x p_x p_op.
(* xbyak_mnemonic.h:1712 *)
Definition i_vcmpordpd_xo (p_x : Reg) (p_op : Operand) : E unit :=
  i_vcmpordpd_xxo p_x p_x p_op.
(* xbyak_mnemonic.h:1713 *)
Definition i_vcmpordps_xo (p_x : Reg) (p_op : Operand) : E unit :=
  i_vcmpordps_xxo p_x p_x p_op.
(* xbyak_mnemonic.h:1714 *)
Definition i_vcmpordsd_xo (p_x : Reg) (p_op : Operand) : E unit :=
  i_vcmpordsd_xxo p_x p_x p_op.
(* xbyak_mnemonic.h:1715 *)
Definition i_vcmpordss_xo (p_x : Reg) (p_op : Operand) : E unit :=
  i_vcmpordss_xxo p_x p_x p_op.
(* xbyak_mnemonic.h:1716 *)
Definition i_vcmppd_xoi (p_x : Reg) (p_op : Operand) (p_imm : Z) : E unit :=
  let p_imm := w8 p_imm in i_vcmppd_xxoi p_x p_x p_op p_imm.
(* xbyak_mnemonic.h:1717 *)
Definition i_vcmpps_xoi (p_x : Reg) (p_op : Operand) (p_imm : Z) : E unit :=
  let p_imm := w8 p_imm in i_vcmpps_xxoi p_x p_x p_op p_imm.
(* xbyak_mnemonic.h:1718 *)
Definition i_vcmpsd_xoi (p_x : Reg) (p_op : Operand) (p_imm : Z) : E unit :=
  let p_imm := w8 p_imm in i_vcmpsd_xxoi p_x p_x p_op p_imm.
(* xbyak_mnemonic.h:1719 *)
Definition i_vcmpss_xoi (p_x : Reg) (p_op : Operand) (p_imm : Z) : E unit :=
  let p_imm := w8 p_imm in i_vcmpss_xxoi p_x p_x p_op p_imm.
(* xbyak_mnemonic.h:1720 *)
Definition i_vcmptrue_uspd_xo (p_x : Reg) (p_op : Operand) : E unit :=
  i_vcmptrue_uspd_xxo p_x p_x p_op.
(* xbyak_mnemonic.h:1721 *)
Definition i_vcmptrue_usps_xo (p_x : Reg) (p_op : Operand) : E unit :=
  i_vcmptrue_usps_xxo p_x p_x p_op.
(* xbyak_mnemonic.h:1722 *)
Definition i_vcmptrue_ussd_xo (p_x : Reg) (p_op : Operand) : E unit :=
  i_vcmptrue_ussd_xxo p_x p_x p_op.
(* xbyak_mnemonic.h:1723 *)
Definition i_vcmptrue_usss_xo (p_x : Reg) (p_op : Operand) : E unit :=
  i_vcmptrue_usss_xxo p_x p_x p_op.
(* xbyak_mnemonic.h:1724 *)
Definition i_vcmptruepd_xo (p_x : Reg) (p_op : Operand) : E unit :=
  i_vcmptruepd_xxo p_x p_x p_op.
(* xbyak_mnemonic.h:1725 *)
Definition i_vcmptrueps_xo (p_x : Reg) (p_op : Operand) : E unit :=
  i_vcmptrueps_xxo p_x p_x p_op.
(* xbyak_mnemonic.h:1726 *)
Definition i_vcmptruesd_xo (p_x : Reg) (p_op : Operand) : E unit :=
  i_vcmptruesd_xxo p_x p_x p_op.
(* xbyak_mnemonic.h:1727 *)
Definition i_vcmptruess_xo (p_x : Reg) (p_op : Operand) : E unit :=
  i_vcmptruess_xxo p_x p_x p_op.
(* xbyak_mnemonic.h:1728 *)
Definition i_vcmpunord_spd_xo (p_x : Reg) (p_op : Operand) : E unit :=
  i_vcmpunord_spd_xxo p_x p_x p_op.
(* xbyak_mnemonic.h:1729 *)
Definition i_vcmpunord_sps_xo (p_x : Reg) (p_op : Operand) : E unit :=
  i_vcmpunord_sps_xxo p_x p_x p_op.
(* xbyak_mnemonic.h:1730 *)
Definition i_vcmpunord_ssd_xo (p_x : Reg) (p_op : Operand) : E unit :=
  i_vcmpunord_ssd_xxo p_x p_x p_op.
(* xbyak_mnemonic.h:1731 *)
Definition i_vcmpunord_sss_xo (p_x : Reg) (p_op : Operand) : E unit :=
  i_vcmpunord_sss_xxo p_x p_x p_op.
(* xbyak_mnemonic.h:1732 *)
Definition i_vcmpunordpd_xo (p_x : Reg) (p_op : Operand) : E unit :=
  i_vcmpunordpd_xxo p_x p_x p_op.
(* xbyak_mnemonic.h:1733 *)
Definition i_vcmpunordps_xo (p_x : Reg) (p_op : Operand) : E unit :=
  i_vcmpunordps_xxo p_x p_x p_op.
(* xbyak_mnemonic.h:1734 *)
Definition i_vcmpunordsd_xo (p_x : Reg) (p_op : Operand) : E unit :=
  i_vcmpunordsd_xxo p_x p_x p_op.
(* xbyak_mnemonic.h:1735 *)
Definition i_vcmpunordss_xo (p_x : Reg) (p_op : Operand) : E unit :=
  i_vcmpunordss_xxo p_x p_x p_op.
(* xbyak_mnemonic.h:1736 *)
Definition i_vcvtsd2ss_xo (p_x : Reg) (p_op : Operand) : E unit :=
  i_vcvtsd2ss_xxo p_x p_x p_op.
(* xbyak_mnemonic.h:1737 *)
Definition i_vcvtsi2sd_xo (p_x : Reg) (p_op : Operand) : E unit :=
  i_vcvtsi2sd_xxo p_x p_x p_op.
(* xbyak_mnemonic.h:1738 *)
Definition i_vcvtsi2ss_xo (p_x : Reg) (p_op : Operand) : E unit :=
  i_vcvtsi2ss_xxo p_x p_x p_op.
(* xbyak_mnemonic.h:1739 *)
Definition i_vcvtss2sd_xo (p_x : Reg) (p_op : Operand) : E unit :=
  i_vcvtss2sd_xxo p_x p_x p_op.
(* xbyak_mnemonic.h:1740 *)
Definition i_vdppd_xoi (p_x : Reg) (p_op : Operand) (p_imm : Z) : E unit :=
  let p_imm := w8 p_imm in i_vdppd_xxoi p_x p_x p_op p_imm.
(* xbyak_mnemonic.h:1741 *)
Definition i_vdpps_xoi (p_x : Reg) (p_op : Operand) (p_imm : Z) : E unit :=
  let p_imm := w8 p_imm in i_vdpps_xxoi p_x p_x p_op p_imm.
(* xbyak_mnemonic.h:1742 *)
Definition i_vinsertps_xoi (p_x : Reg) (p_op : Operand) (p_imm : Z) : E unit :=
  let p_imm := w8 p_imm in i_vinsertps_xxoi p_x p_x p_op p_imm.
(* xbyak_mnemonic.h:1743 *)
Definition i_vmpsadbw_xoi (p_x : Reg) (p_op : Operand) (p_imm : Z) : E unit :=
  let p_imm := w8 p_imm in i_vmpsadbw_xxoip p_x p_x p_op p_imm DefaultEncoding.
(* xbyak_mnemonic.h:1744 *)
Definition i_vpackssdw_xo (p_x : Reg) (p_op : Operand) : E unit :=
  i_vpackssdw_xxo p_x p_x p_op.
(* xbyak_mnemonic.h:1745 *)
Definition i_vpacksswb_xo (p_x : Reg) (p_op : Operand) : E unit :=
  i_vpacksswb_xxo p_x p_x p_op.
(* xbyak_mnemonic.h:1746 *)
Definition i_vpackusdw_xo (p_x : Reg) (p_op : Operand) : E unit :=
  i_vpackusdw_xxo p_x p_x p_op.
(* xbyak_mnemonic.h:1747 *)
Definition i_vpackuswb_xo (p_x : Reg) (p_op : Operand) : E unit :=
  i_vpackuswb_xxo p_x p_x p_op.
(* xbyak_mnemonic.h:1748 *)
Definition i_vpaddb_xo (p_x : Reg) (p_op : Operand) : E unit :=
  i_vpaddb_xxo p_x p_x p_op.
(* xbyak_mnemonic.h:1749 *)
Definition i_vpaddd_xo (p_x : Reg) (p_op : Operand) : E unit :=
  i_vpaddd_xxo p_x p_x p_op.
(* xbyak_mnemonic.h:1750 *)
Definition i_vpaddq_xo (p_x : Reg) (p_op : Operand) : E unit :=
  i_vpaddq_xxo p_x p_x p_op.
(* xbyak_mnemonic.h:1751 *)
Definition i_vpaddsb_xo (p_x : Reg) (p_op : Operand) : E unit :=
  i_vpaddsb_xxo p_x p_x p_op.
(* xbyak_mnemonic.h:1752 *)
Definition i_vpaddsw_xo (p_x : Reg) (p_op : Operand) : E unit :=
  i_vpaddsw_xxo p_x p_x p_op.
(* xbyak_mnemonic.h:1753 *)
Definition i_vpaddusb_xo (p_x : Reg) (p_op : Operand) : E unit :=
  i_vpaddusb_xxo p_x p_x p_op.
(* xbyak_mnemonic.h:1754 *)
Definition i_vpaddusw_xo (p_x : Reg) (p_op : Operand) : E unit :=
  i_vpaddusw_xxo p_x p_x p_op.
(* xbyak_mnemonic.h:1755 *)
Definition i_vpaddw_xo (p_x : Reg) (p_op : Operand) : E unit :=
  i_vpaddw_xxo p_x p_x p_op.
(* xbyak_mnemonic.h:1756 *)
Definition i_vpalignr_xoi (p_x : Reg) (p_op : Operand) (p_imm : Z) : E unit :=
  let p_imm := w8 p_imm in i_vpalignr_xxoi p_x p_x p_op p_imm.
(* xbyak_mnemonic.h:1757 *)
Definition i_vpand_xo (p_x : Reg) (p_op : Operand) : E unit :=
  i_vpand_xxo p_x p_x p_op.
(* xbyak_mnemonic.h:1758 *)
Definition i_vpandn_xo (p_x : Reg) (p_op : Operand) : E unit :=
  i_vpandn_xxo p_x p_x p_op.
(* xbyak_mnemonic.h:1759 *)
Definition i_vpavgb_xo (p_x : Reg) (p_op : Operand) : E unit :=
  i_vpavgb_xxo p_x p_x p_op.
(* xbyak_mnemonic.h:1760 *)
Definition i_vpavgw_xo (p_x : Reg) (p_op : Operand) : E unit :=
  i_vpavgw_xxo p_x p_x p_op.
(* xbyak_mnemonic.h:1761 *)
Definition i_vpblendd_xoi (p_x : Reg) (p_op : Operand) (p_imm : Z) : E unit :=
  let p_imm := w8 p_imm in i_vpblendd_xxoi p_x p_x p_op p_imm.
(* xbyak_mnemonic.h:1762 *)
Definition i_vpblendvb_xox (p_x1 : Reg) (p_op : Operand) (p_x4 : Reg) : E unit :=
  i_vpblendvb_xxox p_x1 p_x1 p_op p_x4.
(* xbyak_mnemonic.h:1763 *)
Definition i_vpblendw_xoi (p_x : Reg) (p_op : Operand) (p_imm : Z) : E unit :=
  let p_imm := w8 p_imm in i_vpblendw_xxoi p_x p_x p_op p_imm.
(* xbyak_mnemonic.h:1764 *)
Definition i_vpclmulqdq_xoi (p_x : Reg) (p_op : Operand) (p_imm : Z) : E unit :=
  let p_imm := w8 p_imm in i_vpclmulqdq_xxoi p_x p_x p_op p_imm.
(* xbyak_mnemonic.h:1765 *)
Definition i_vpcmpeqb_xo (p_x : Reg) (p_op : Operand) : E unit :=
  i_vpcmpeqb_xxo p_x p_x p_op.
(* xbyak_mnemonic.h:1766 *)
Definition i_vpcmpeqd_xo (p_x : Reg) (p_op : Operand) : E unit :=
  i_vpcmpeqd_xxo p_x p_x p_op.
(* xbyak_mnemonic.h:1767 *)
Definition i_vpcmpeqq_xo (p_x : Reg) (p_op : Operand) : E unit :=
  i_vpcmpeqq_xxo p_x p_x p_op.
(* xbyak_mnemonic.h:1768 *)
Definition i_vpcmpeqw_xo (p_x : Reg) (p_op : Operand) : E unit :=
  i_vpcmpeqw_xxo p_x p_x p_op.
(* xbyak_mnemonic.h:1769 *)
Definition i_vpcmpgtb_xo (p_x : Reg) (p_op : Operand) : E unit :=
  i_vpcmpgtb_xxo p_x p_x p_op.
(* xbyak_mnemonic.h:1770 *)
Definition i_vpcmpgtd_xo (p_x : Reg) (p_op : Operand) : E unit :=
  i_vpcmpgtd_xxo p_x p_x p_op.
(* xbyak_mnemonic.h:1771 *)
Definition i_vpcmpgtq_xo (p_x : Reg) (p_op : Operand) : E unit :=
  i_vpcmpgtq_xxo p_x p_x p_op.
(* xbyak_mnemonic.h:1772 *)
Definition i_vpcmpgtw_xo (p_x : Reg) (p_op : Operand) : E unit :=
  i_vpcmpgtw_xxo p_x p_x p_op.
(* xbyak_mnemonic.h:1773 *)
Definition i_vphaddd_xo (p_x : Reg) (p_op : Operand) : E unit :=
  i_vphaddd_xxo p_x p_x p_op.
(* xbyak_mnemonic.h:1774 *)
Definition i_vphaddsw_xo (p_x : Reg) (p_op : Operand) : E unit :=
  i_vphaddsw_xxo p_x p_x p_op.
(* xbyak_mnemonic.h:1775 *)
Definition i_vphaddw_xo (p_x : Reg) (p_op : Operand) : E unit :=
  i_vphaddw_xxo p_x p_x p_op.
(* xbyak_mnemonic.h:1776 *)
Definition i_vphsubd_xo (p_x : Reg) (p_op : Operand) : E unit :=
  i_vphsubd_xxo p_x p_x p_op.
(* xbyak_mnemonic.h:1777 *)
Definition i_vphsubsw_xo (p_x : Reg) (p_op : Operand) : E unit :=
  i_vphsubsw_xxo p_x p_x p_op.
(* xbyak_mnemonic.h:1778 *)
Definition i_vphsubw_xo (p_x : Reg) (p_op : Operand) : E unit :=
  i_vphsubw_xxo p_x p_x p_op.
(* xbyak_mnemonic.h:1779 *)
Definition i_vpinsrb_xoi (p_x : Reg) (p_op : Operand) (p_imm : Z) : E unit :=
  let p_imm := w8 p_imm in i_vpinsrb_xxoi p_x p_x p_op p_imm.
(* xbyak_mnemonic.h:1780 *)
Definition i_vpinsrd_xoi (p_x : Reg) (p_op : Operand) (p_imm : Z) : E unit :=
  let p_imm := w8 p_imm in i_vpinsrd_xxoi p_x p_x p_op p_imm.
(* xbyak_mnemonic.h:1781 *)
Definition i_vpinsrq_xoi (p_x : Reg) (p_op : Operand) (p_imm : Z) : E unit :=
  let p_imm := w8 p_imm in i_vpinsrq_xxoi p_x p_x p_op p_imm.
(* xbyak_mnemonic.h:1782 *)
Definition i_vpinsrw_xoi (p_x : Reg) (p_op : Operand) (p_imm : Z) : E unit :=
  let p_imm := w8 p_imm in i_vpinsrw_xxoi p_x p_x p_op p_imm.
(* xbyak_mnemonic.h:1783 *)
Definition i_vpmaddubsw_xo (p_x : Reg) (p_op : Operand) : E unit :=
  i_vpmaddubsw_xxo p_x p_x p_op.
(* xbyak_mnemonic.h:1784 *)
Definition i_vpmaddwd_xo (p_x : Reg) (p_op : Operand) : E unit :=
  i_vpmaddwd_xxo p_x p_x p_op.
(* xbyak_mnemonic.h:1785 *)
Definition i_vpmaxsb_xo (p_x : Reg) (p_op : Operand) : E unit :=
  i_vpmaxsb_xxo p_x p_x p_op.
(* xbyak_mnemonic.h:1786 *)
Definition i_vpmaxsd_xo (p_x : Reg) (p_op : Operand) : E unit :=
  i_vpmaxsd_xxo p_x p_x p_op.
(* xbyak_mnemonic.h:1787 *)
Definition i_vpmaxsw_xo (p_x : Reg) (p_op : Operand) : E unit :=
  i_vpmaxsw_xxo p_x p_x p_op.
(* xbyak_mnemonic.h:1788 *)
Definition i_vpmaxub_xo (p_x : Reg) (p_op : Operand) : E unit :=
  i_vpmaxub_xxo p_x p_x p_op.
(* xbyak_mnemonic.h:1789 *)
Definition i_vpmaxud_xo (p_x : Reg) (p_op : Operand) : E unit :=
  i_vpmaxud_xxo p_x p_x p_op.
(* xbyak_mnemonic.h:1790 *)
Definition i_vpmaxuw_xo (p_x : Reg) (p_op : Operand) : E unit :=
  i_vpmaxuw_xxo p_x p_x p_op.
(* xbyak_mnemonic.h:1791 *)
Definition i_vpminsb_xo (p_x : Reg) (p_op : Operand) : E unit :=
  i_vpminsb_xxo p_x p_x p_op.
(* xbyak_mnemonic.h:1792 *)
Definition i_vpminsd_xo (p_x : Reg) (p_op : Operand) : E unit :=
  i_vpminsd_xxo p_x p_x p_op.
(* xbyak_mnemonic.h:1793 *)
Definition i_vpminsw_xo (p_x : Reg) (p_op : Operand) : E unit :=
  i_vpminsw_xxo p_x p_x p_op.
(* xbyak_mnemonic.h:1794 *)
Definition i_vpminub_xo (p_x : Reg) (p_op : Operand) : E unit :=
  i_vpminub_xxo p_x p_x p_op.
(* xbyak_mnemonic.h:1795 *)
Definition i_vpminud_xo (p_x : Reg) (p_op : Operand) : E unit :=
  i_vpminud_xxo p_x p_x p_op.
(* xbyak_mnemonic.h:1796 *)
Definition i_vpminuw_xo (p_x : Reg) (p_op : Operand) : E unit :=
  i_vpminuw_xxo p_x p_x p_op.
(* xbyak_mnemonic.h:1797 *)
Definition i_vpmuldq_xo (p_x : Reg) (p_op : Operand) : E unit :=
  i_vpmuldq_xxo p_x p_x p_op.
(* xbyak_mnemonic.h:1798 *)
Definition i_vpmulhrsw_xo (p_x : Reg) (p_op : Operand) : E unit :=
  i_vpmulhrsw_xxo p_x p_x p_op.
(* xbyak_mnemonic.h:1799 *)
Definition i_vpmulhuw_xo (p_x : Reg) (p_op : Operand) : E unit :=
  i_vpmulhuw_xxo p_x p_x p_op.
(* xbyak_mnemonic.h:1800 *)
Definition i_vpmulhw_xo (p_x : Reg) (p_op : Operand) : E unit :=
  i_vpmulhw_xxo p_x p_x p_op.
(* xbyak_mnemonic.h:1801 *)
Definition i_vpmulld_xo (p_x : Reg) (p_op : Operand) : E unit :=
  i_vpmulld_xxo p_x p_x p_op.
(* xbyak_mnemonic.h:1802 *)
Definition i_vpmullw_xo (p_x : Reg) (p_op : Operand) : E unit :=
  i_vpmullw_xxo p_x p_x p_op.
(* xbyak_mnemonic.h:1803 *)
Definition i_vpmuludq_xo (p_x : Reg) (p_op : Operand) : E unit :=
  i_vpmuludq_xxo p_x p_x p_op.
(* xbyak_mnemonic.h:1804 *)
Definition i_vpor_xo (p_x : Reg) (p_op : Operand) : E unit :=
  i_vpor_xxo p_x p_x p_op.
(* xbyak_mnemonic.h:1805 *)
Definition i_vpsadbw_xo (p_x : Reg) (p_op : Operand) : E unit :=
  i_vpsadbw_xxo p_x p_x p_op.
(* xbyak_mnemonic.h:1806 *)
Definition i_vpsignb_xo (p_x : Reg) (p_op : Operand) : E unit :=
  i_vpsignb_xxo p_x p_x p_op.
(* xbyak_mnemonic.h:1807 *)
Definition i_vpsignd_xo (p_x : Reg) (p_op : Operand) : E unit :=
  i_vpsignd_xxo p_x p_x p_op.
(* xbyak_mnemonic.h:1808 *)
Definition i_vpsignw_xo (p_x : Reg) (p_op : Operand) : E unit :=
  i_vpsignw_xxo p_x p_x p_op.
(* xbyak_mnemonic.h:1809 *)
Definition i_vpslld_xo (p_x : Reg) (p_op : Operand) : E unit :=
  i_vpslld_xxo p_x p_x p_op.
(* xbyak_mnemonic.h:1810 *)
Definition i_vpslld_xi (p_x : Reg) (p_imm : Z) : E unit :=
  let p_imm := w8 p_imm in i_vpslld_xoi p_x (OReg p_x) p_imm.
(* xbyak_mnemonic.h:1811 *)
Definition i_vpslldq_xi (p_x : Reg) (p_imm : Z) : E unit :=
  let p_imm := w8 p_imm in i_vpslldq_xoi p_x (OReg p_x) p_imm.
(* xbyak_mnemonic.h:1812 *)
Definition i_vpsllq_xo (p_x : Reg) (p_op : Operand) : E unit :=
  i_vpsllq_xxo p_x p_x p_op.
(* xbyak_mnemonic.h:1813 *)
Definition i_vpsllq_xi (p_x : Reg) (p_imm : Z) : E unit :=
  let p_imm := w8 p_imm in i_vpsllq_xoi p_x (OReg p_x) p_imm.
(* xbyak_mnemonic.h:1814 *)
Definition i_vpsllw_xo (p_x : Reg) (p_op : Operand) : E unit :=
  i_vpsllw_xxo p_x p_x p_op.
(* xbyak_mnemonic.h:1815 *)
Definition i_vpsllw_xi (p_x : Reg) (p_imm : Z) : E unit :=
  let p_imm := w8 p_imm in i_vpsllw_xoi p_x (OReg p_x) p_imm.
(* xbyak_mnemonic.h:1816 *)
Definition i_vpsrad_xo (p_x : Reg) (p_op : Operand) : E unit :=
  i_vpsrad_xxo p_x p_x p_op.
(* xbyak_mnemonic.h:1817 *)
Definition i_vpsrad_xi (p_x : Reg) (p_imm : Z) : E unit :=
  let p_imm := w8 p_imm in i_vpsrad_xoi p_x (OReg p_x) p_imm.
(* xbyak_mnemonic.h:1818 *)
Definition i_vpsraw_xo (p_x : Reg) (p_op : Operand) : E unit :=
  i_vpsraw_xxo p_x p_x p_op.
(* xbyak_mnemonic.h:1819 *)
Definition i_vpsraw_xi (p_x : Reg) (p_imm : Z) : E unit :=
  let p_imm := w8 p_imm in i_vpsraw_xoi p_x (OReg p_x) p_imm.
(* xbyak_mnemonic.h:1820 *)
Definition i_vpsrld_xo (p_x : Reg) (p_op : Operand) : E unit :=
  i_vpsrld_xxo p_x p_x p_op.
(* xbyak_mnemonic.h:1821 *)
Definition i_vpsrld_xi (p_x : Reg) (p_imm : Z) : E unit :=
  let p_imm := w8 p_imm in i_vpsrld_xoi p_x (OReg p_x) p_imm.
(* xbyak_mnemonic.h:1822 *)
Definition i_vpsrldq_xi (p_x : Reg) (p_imm : Z) : E unit :=
  let p_imm := w8 p_imm in i_vpsrldq_xoi p_x (OReg p_x) p_imm.
(* xbyak_mnemonic.h:1823 *)
Definition i_vpsrlq_xo (p_x : Reg) (p_op : Operand) : E unit :=
  i_vpsrlq_xxo p_x p_x p_op.
(* xbyak_mnemonic.h:1824 *)
Definition i_vpsrlq_xi (p_x : Reg) (p_imm : Z) : E unit :=
  let p_imm := w8 p_imm in i_vpsrlq_xoi p_x (OReg p_x) p_imm.
(* xbyak_mnemonic.h:1825 *)
Definition i_vpsrlw_xo (p_x : Reg) (p_op : Operand) : E unit :=
  i_vpsrlw_xxo p_x p_x p_op.
(* xbyak_mnemonic.h:1826 *)
Definition i_vpsrlw_xi (p_x : Reg) (p_imm : Z) : E unit :=
  let p_imm := w8 p_imm in i_vpsrlw_xoi p_x (OReg p_x) p_imm.
(* xbyak_mnemonic.h:1827 *)
Definition i_vpsubb_xo (p_x : Reg) (p_op : Operand) : E unit :=
  i_vpsubb_xxo p_x p_x p_op.
(* xbyak_mnemonic.h:1828 *)
Definition i_vpsubd_xo (p_x : Reg) (p_op : Operand) : E unit :=
  i_vpsubd_xxo p_x p_x p_op.
(* xbyak_mnemonic.h:1829 *)
Definition i_vpsubq_xo (p_x : Reg) (p_op : Operand) : E unit :=
  i_vpsubq_xxo p_x p_x p_op.
(* xbyak_mnemonic.h:1830 *)
Definition i_vpsubsb_xo (p_x : Reg) (p_op : Operand) : E unit :=
  i_vpsubsb_xxo p_x p_x p_op.
(* xbyak_mnemonic.h:1831 *)
Definition i_vpsubsw_xo (p_x : Reg) (p_op : Operand) : E unit :=
  i_vpsubsw_xxo p_x p_x p_op.
(* xbyak_mnemonic.h:1832 *)
Definition i_vpsubusb_xo (p_x : Reg) (p_op : Operand) : E unit :=
  i_vpsubusb_xxo p_x p_x p_op.
(* xbyak_mnemonic.h:1833 *)
Definition i_vpsubusw_xo (p_x : Reg) (p_op : Operand) : E unit :=
  i_vpsubusw_xxo p_x p_x p_op.
(* xbyak_mnemonic.h:1834 *)
Definition i_vpsubw_xo (p_x : Reg) (p_op : Operand) : E unit :=
  i_vpsubw_xxo p_x p_x p_op.
(* xbyak_mnemonic.h:1835 *)
Definition i_vpunpckhbw_xo (p_x : Reg) (p_op : Operand) : E unit :=
  i_vpunpckhbw_xxo p_x p_x p_op.
(* xbyak_mnemonic.h:1836 *)
Definition i_vpunpckhdq_xo (p_x : Reg) (p_op : Operand) : E unit :=
  i_vpunpckhdq_xxo p_x p_x p_op.
(* xbyak_mnemonic.h:1837 *)
Definition i_vpunpckhqdq_xo (p_x : Reg) (p_op : Operand) : E unit :=
  i_vpunpckhqdq_xxo p_x p_x p_op.
(* xbyak_mnemonic.h:1838 *)
Definition i_vpunpckhwd_xo (p_x : Reg) (p_op : Operand) : E unit :=
  i_vpunpckhwd_xxo p_x p_x p_op.
(* xbyak_mnemonic.h:1839 *)
Definition i_vpunpcklbw_xo (p_x : Reg) (p_op : Operand) : E unit :=
  i_vpunpcklbw_xxo p_x p_x p_op.
(* xbyak_mnemonic.h:1840 *)
Definition i_vpunpckldq_xo (p_x : Reg) (p_op : Operand) : E unit :=
  i_vpunpckldq_xxo p_x p_x p_op.
(* xbyak_mnemonic.h:1841 *)
Definition i_vpunpcklqdq_xo (p_x : Reg) (p_op : Operand) : E unit :=
  i_vpunpcklqdq_xxo p_x p_x p_op.
(* xbyak_mnemonic.h:1842 *)
Definition i_vpunpcklwd_xo (p_x : Reg) (p_op : Operand) : E unit :=
  i_vpunpcklwd_xxo p_x p_x p_op.
(* xbyak_mnemonic.h:1843 *)
Definition i_vpxor_xo (p_x : Reg) (p_op : Operand) : E unit :=
  i_vpxor_xxo p_x p_x p_op.
(* xbyak_mnemonic.h:1844 *)
Definition i_vrcpss_xo (p_x : Reg) (p_op : Operand) : E unit :=
  i_vrcpss_xxo p_x p_x p_op.
(* xbyak_mnemonic.h:1845 *)
Definition i_vroundsd_xoi (p_x : Reg) (p_op : Operand) (p_imm : Z) : E unit :=
  let p_imm := w8 p_imm in i_vroundsd_xxoi p_x p_x p_op p_imm.
(* xbyak_mnemonic.h:1846 *)
Definition i_vroundss_xoi (p_x : Reg) (p_op : Operand) (p_imm : Z) : E unit :=
  let p_imm := w8 p_imm in i_vroundss_xxoi p_x p_x p_op p_imm.
(* xbyak_mnemonic.h:1847 *)
Definition i_vrsqrtss_xo (p_x : Reg) (p_op : Operand) : E unit :=
  i_vrsqrtss_xxo p_x p_x p_op.
(* xbyak_mnemonic.h:1848 *)
Definition i_vshufpd_xoi (p_x : Reg) (p_op : Operand) (p_imm : Z) : E unit :=
  let p_imm := w8 p_imm in i_vshufpd_xxoi p_x p_x p_op p_imm.
(* xbyak_mnemonic.h:1849 *)
Definition i_vshufps_xoi (p_x : Reg) (p_op : Operand) (p_imm : Z) : E unit :=
  let p_imm := w8 p_imm in i_vshufps_xxoi p_x p_x p_op p_imm.
(* xbyak_mnemonic.h:1850 *)
Definition i_vsqrtsd_xo (p_x : Reg) (p_op : Operand) : E unit :=
  i_vsqrtsd_xxo p_x p_x p_op.
(* xbyak_mnemonic.h:1851 *)
Definition i_vsqrtss_xo (p_x : Reg) (p_op : Operand) : E unit :=
  i_vsqrtss_xxo p_x p_x p_op.
(* xbyak_mnemonic.h:1852 *)
Definition i_vunpckhpd_xo (p_x : Reg) (p_op : Operand) : E unit :=
  i_vunpckhpd_xxo p_x p_x p_op.
(* xbyak_mnemonic.h:1853 *)
Definition i_vunpckhps_xo (p_x : Reg) (p_op : Operand) : E unit :=
  i_vunpckhps_xxo p_x p_x p_op.
(* xbyak_mnemonic.h:1854 *)
Definition i_vunpcklpd_xo (p_x : Reg) (p_op : Operand) : E unit :=
  i_vunpcklpd_xxo p_x p_x p_op.
(* xbyak_mnemonic.h:1855 *)
Definition i_vunpcklps_xo (p_x : Reg) (p_op : Operand) : E unit :=
  i_vunpcklps_xxo p_x p_x p_op.
