(** What is expected of the text of an instruction. *)
From Verif Require Export Disasm.Model.

Definition is_byte (b : Z) : Prop := 0 <= b < 256.
(** The operation codes of System/360 (Principles of Operation), with the floating point, decimal, protection, direct control
    and extended precision features. *)
Definition between (x y op : Z) : bool := (x <=? op) && (op <=? y).
Definition s360 (op : Z) : bool :=
  between 4 10 op || between 16 63 op || between 64 76 op || between 78 80 op || between 84 96 op || between 103 112 op || between 120 128 op ||
  between 130 152 op || between 156 159 op || between 209 215 op || between 220 223 op || between 241 243 op || between 248 253 op.
(** The parts of an instruction that mean something: the operation code, and the fields in the order of the instruction.  What
    has no meaning: the second register of SPM, the third of the shifts, the immediate of SSM, LPSW, TS and the input/output
    instructions. *)
Definition one_reg (op : Z) : bool := op =? 4.
Definition no_r3 (op : Z) : bool := between 136 143 op.
Definition no_imm (op : Z) : bool := (op =? 128) || (op =? 130) || (op =? 147) || between 156 159 op.
Definition meaning (v : list Z) : list Z :=
  match v with
  | op :: b1 :: b2 :: b3 :: b4 :: b5 :: _ =>
    if negb (s360 op) then [op]
    else if op <? 64 then [op; if one_reg op then b1 / 16 else b1]
    else if op <? 192 then [op; if no_imm op then 0 else if no_r3 op then b1 / 16 else b1; b2; b3]
    else [op; b1; b2; b3; b4; b5]
  | _ => []
  end.
Definition an_inst (v : list Z) : Prop := length v = 6%nat /\ Forall is_byte v.
(** The part of the text in front of the first blank. *)
Fixpoint word (t : text) : text := match t with [] => [] | c :: r => if ascii_dec c " " then [] else c :: word r end.

(** The mnemonics of the Principles of Operation; DIAG stands for Diagnose, which has none. *)
From Coq Require DecimalString HexadecimalString DecimalNat.
Local Open Scope string_scope.
Local Open Scope Z_scope.
Definition names (from : Z) (l : list string) (op : Z) : option string := if op <? from then None else nth_error l (Z.to_nat (op - from)).
Fixpoint first (l : list (option string)) : option string := match l with [] => None | Some x :: _ => Some x | None :: r => first r end.
Definition mnemonic (op : Z) : option string :=
  first (map (fun f => f op) [
    names 4 ["SPM"; "BALR"; "BCTR"; "BCR"; "SSK"; "ISK"; "SVC"];
    names 16 ["LPR"; "LNR"; "LTR"; "LCR"; "NR"; "CLR"; "OR"; "XR"; "LR"; "CR"; "AR"; "SR"; "MR"; "DR"; "ALR"; "SLR";
              "LPDR"; "LNDR"; "LTDR"; "LCDR"; "HDR"; "LRDR"; "MXR"; "MXDR"; "LDR"; "CDR"; "ADR"; "SDR"; "MDR"; "DDR"; "AWR"; "SWR";
              "LPER"; "LNER"; "LTER"; "LCER"; "HER"; "LRER"; "AXR"; "SXR"; "LER"; "CER"; "AER"; "SER"; "MER"; "DER"; "AUR"; "SUR";
              "STH"; "LA"; "STC"; "IC"; "EX"; "BAL"; "BCT"; "BC"; "LH"; "CH"; "AH"; "SH"; "MH"];
    names 78 ["CVD"; "CVB"; "ST"]; names 84 ["N"; "CL"; "O"; "X"; "L"; "C"; "A"; "S"; "M"; "D"; "AL"; "SL"; "STD"];
    names 103 ["MXD"; "LD"; "CD"; "AD"; "SD"; "MD"; "DD"; "AW"; "SW"; "STE"]; names 120 ["LE"; "CE"; "AE"; "SE"; "ME"; "DE"; "AU"; "SU"; "SSM"];
    names 130 ["LPSW"; "DIAG"; "WRD"; "RDD"; "BXH"; "BXLE"; "SRL"; "SLL"; "SRA"; "SLA"; "SRDL"; "SLDL"; "SRDA"; "SLDA"; "STM"; "TM"; "MVI"; "TS"; "NI"; "CLI"; "OI"; "XI"; "LM"];
    names 156 ["SIO"; "TIO"; "HIO"; "TCH"]; names 209 ["MVN"; "MVC"; "MVZ"; "NC"; "CLC"; "OC"; "XC"]; names 220 ["TR"; "TRT"; "ED"; "EDMK"];
    names 241 ["MVO"; "PACK"; "UNPK"]; names 248 ["ZAP"; "CP"; "AP"; "SP"; "MP"; "DP"] ]).
(** A number in decimal, and in hexadecimal with leading zeros, with the numerals of the standard library. *)
Definition decimal (n : Z) : string := DecimalString.NilZero.string_of_uint (Nat.to_uint (Z.to_nat n)).
Definition hexadecimal (w : nat) (n : Z) : string :=
  let s := HexadecimalString.NilZero.string_of_uint (Nat.to_hex_uint (Z.to_nat n)) in
  String.concat "" (List.repeat "0" (w - String.length s)) ++ s.
(** The operands as an assembler writes them: the displacement in hexadecimal, the immediate in hexadecimal, everything else in
    decimal; a length as it is in the instruction (one less than the assembler's).  The base is left out when it is zero in
    the formats RS and SI and in the first operand of SS. *)
Definition address (b c : Z) : string := hexadecimal 3 (b mod 16 * 256 + c).
Definition based (opn cls : string) (b : Z) : string := if b / 16 =? 0 then "" else opn ++ decimal (b / 16) ++ cls.
Definition three (op : Z) : bool := (op =? 134) || (op =? 135) || (op =? 144) || (op =? 152).
Definition asm_ops (op b1 b2 b3 b4 b5 : Z) : string :=
  if op =? 10 then hexadecimal 2 b1
  else if op =? 4 then decimal (b1 / 16)
  else if op <? 64 then decimal (b1 / 16) ++ "," ++ decimal (b1 mod 16)
  else if op <? 128 then decimal (b1 / 16) ++ "," ++ address b2 b3 ++ "(" ++ decimal (b1 mod 16) ++ "," ++ decimal (b2 / 16) ++ ")"
  else if three op then decimal (b1 / 16) ++ "," ++ decimal (b1 mod 16) ++ "," ++ address b2 b3 ++ based "(" ")" b2
  else if no_r3 op then decimal (b1 / 16) ++ "," ++ address b2 b3 ++ based "(" ")" b2
  else if op <? 192 then address b2 b3 ++ based "(" ")" b2 ++ (if no_imm op then "" else "," ++ hexadecimal 2 b1)
  else if op <? 240 then address b2 b3 ++ "(" ++ decimal b1 ++ based "," "" b2 ++ ")," ++ address b4 b5 ++ "(" ++ decimal (b4 / 16) ++ ")"
  else address b2 b3 ++ "(" ++ decimal (b1 / 16) ++ based "," "" b2 ++ ")," ++ address b4 b5 ++ "(" ++ decimal (b1 mod 16) ++ "," ++ decimal (b4 / 16) ++ ")".
Definition assembler (v : list Z) : string :=
  match v with
  | op :: b1 :: b2 :: b3 :: b4 :: b5 :: _ => match mnemonic op with Some n => n ++ " " ++ asm_ops op b1 b2 b3 b4 b5 | None => "?" ++ hexadecimal 2 op ++ "?" end
  | _ => ""
  end.
