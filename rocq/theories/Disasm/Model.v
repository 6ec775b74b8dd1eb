(** Model of /repo/src/device/disassem.c: the text of an instruction in the trace.
    The instruction is a list of bytes, a read behind its end is [UB].  The text is a list of characters; the two buffers
    have 256 and 100 characters, writing more than that is [UB].
    Not modelled: the logger (the text is its format string), opcodes that are defined but not in the table. *)
From Coq Require Export String Ascii.
From Verif Require Export Base.Bits.
From Coq Require Export List ZArith Lia Bool.
Export ListNotations.
Open Scope Z_scope.

Definition text := list ascii.
Definition str (s : string) : text := list_ascii_of_string s.
Definition byte_at (v : list Z) (i : nat) : res Z := match nth_error v i with Some b => Ok b | None => UB end.

(** optab, disassem.c:224-375: opcode, name, type; the format is in the low three bits of the type (LNMSK), RR 1, RX 2, RS 3,
    SI 4, SS 5; ONEOP 8, IMDOP 16, TWOOP 24, ZEROOP 32. *)
Definition optab : list (Z * string * Z) := [
  (4, "SPM", 9); (5, "BALR", 1); (6, "BCTR", 1); (7, "BCR", 1); (8, "SSK", 1); (9, "ISK", 1); (10, "SVC", 17);
  (16, "LPR", 1); (17, "LNR", 1); (18, "LTR", 1); (19, "LCR", 1); (20, "NR", 1); (22, "OR", 1); (23, "XR", 1);
  (21, "CLR", 1); (25, "CR", 1); (24, "LR", 1); (26, "AR", 1); (27, "SR", 1); (28, "MR", 1); (29, "DR", 1); (30, "ALR", 1);
  (31, "SLR", 1); (32, "LPDR", 1); (33, "LNDR", 1); (34, "LTDR", 1); (35, "LCDR", 1); (36, "HDR", 1); (37, "LRDR", 1);
  (38, "MXR", 1); (39, "MXDR", 1); (40, "LDR", 1); (41, "CDR", 1); (42, "ADR", 1); (43, "SDR", 1); (44, "MDR", 1);
  (45, "DDR", 1); (46, "AWR", 1); (47, "SWR", 1); (48, "LPER", 1); (49, "LNER", 1); (50, "LTER", 1); (51, "LCER", 1);
  (52, "HER", 1); (53, "LRER", 1); (54, "AXR", 1); (55, "SXR", 1); (56, "LER", 1); (57, "CER", 1); (58, "AER", 1);
  (59, "SER", 1); (60, "MER", 1); (61, "DER", 1); (62, "AUR", 1); (63, "SUR", 1); (64, "STH", 2); (65, "LA", 2);
  (66, "STC", 2); (67, "IC", 2); (68, "EX", 2); (69, "BAL", 2); (70, "BCT", 2); (71, "BC", 2); (72, "LH", 2); (73, "CH", 2);
  (74, "AH", 2); (75, "SH", 2); (76, "MH", 2); (78, "CVD", 2); (79, "CVB", 2); (80, "ST", 2); (84, "N", 2); (85, "CL", 2);
  (86, "O", 2); (87, "X", 2); (88, "L", 2); (89, "C", 2); (90, "A", 2); (91, "S", 2); (92, "M", 2); (93, "D", 2);
  (94, "AL", 2); (95, "SL", 2); (96, "STD", 2); (103, "MXD", 2); (104, "LD", 2); (105, "CD", 2); (106, "AD", 2);
  (107, "SD", 2); (108, "MD", 2); (109, "DD", 2); (110, "AW", 2); (111, "SW", 2); (112, "STE", 2); (120, "LE", 2);
  (121, "CE", 2); (122, "AE", 2); (123, "SE", 2); (124, "ME", 2); (125, "DE", 2); (126, "AU", 2); (127, "SU", 2);
  (128, "SSM", 36); (130, "LPSW", 36); (131, "DIAG", 4); (134, "BXH", 27); (135, "BXLE", 27); (136, "SRL", 35);
  (137, "SLL", 35); (138, "SRA", 35); (139, "SLA", 35); (140, "SRDL", 35); (141, "SLDL", 35); (142, "SRDA", 35);
  (143, "SLDA", 35); (144, "STM", 27); (145, "TM", 4); (146, "MVI", 4); (147, "TS", 36); (148, "NI", 4); (149, "CLI", 4);
  (150, "OI", 4); (151, "XI", 4); (152, "LM", 27); (156, "SIO", 36); (157, "TIO", 36); (158, "HIO", 36); (159, "TCH", 36);
  (209, "MVN", 5); (210, "MVC", 5); (211, "MVZ", 5); (212, "NC", 5); (213, "CLC", 5); (214, "OC", 5); (215, "XC", 5);
  (220, "TR", 5); (221, "TRT", 5); (222, "ED", 5); (223, "EDMK", 5); (241, "MVO", 29); (242, "PACK", 29); (243, "UNPK", 29);
  (248, "ZAP", 29); (249, "CP", 29); (250, "AP", 29); (251, "SP", 29); (252, "MP", 29); (253, "DP", 29) ]%string.
Definition lookup (op : Z) : option (string * Z) :=
  match find (fun e => fst (fst e) =? op) optab with Some (_, n, t) => Some (n, t) | None => None end.

(** %d of a number from 0 to 255, %01x of a number below 16 and %02x of a byte. *)
Definition digit (d : Z) : ascii := ascii_of_nat (Z.to_nat (if d <? 10 then 48 + d else 87 + d)).
Definition dec (n : Z) : text :=
  if n <? 10 then [digit n] else if n <? 100 then [digit (n / 10); digit (n mod 10)]
  else [digit (n / 100); digit (n / 10 mod 10); digit (n mod 10)].
Definition hex1 (n : Z) : text := [digit n].
Definition hex2 (n : Z) : text := [digit (n / 16); digit (n mod 16)].
Definition hi (b : Z) : Z := Z.land (Z.shiftr b 4) 15.
Definition lo (b : Z) : Z := Z.land b 15.
Definition has (t m : Z) : bool := negb (Z.land t m =? 0).

(** sprintf into b2 and strcat to buffer. *)
Definition put (buf t : text) : res text :=
  if (100 <? length t + 1)%nat then UB else if (256 <? length (buf ++ t) + 1)%nat then UB else Ok (buf ++ t).
Definition start (t : text) : res text := if (256 <? length t + 1)%nat then UB else Ok t.
Definition disp (b1 b2 : Z) : text := hex1 (lo b1) ++ hex2 b2.

(** print_inst, disassem.c:377-453. *)
Definition operands (v : list Z) (n : string) (t : Z) : res text :=
  let name := str n ++ str " " in
  let k := Z.land t 7 in
  if k =? 1 then
    let* b1 := byte_at v 1 in
    if has t 16 then start (name ++ hex2 b1 ++ str " ")
    else if has t 8 then start (name ++ dec (hi b1) ++ str " ")
    else start (name ++ dec (hi b1) ++ str "," ++ dec (lo b1) ++ str " ")
  else if k =? 2 then
    let* b1 := byte_at v 1 in
    let* b2 := byte_at v 2 in
    let* b3 := byte_at v 3 in
    start (name ++ dec (hi b1) ++ str "," ++ disp b2 b3 ++ str "(" ++ dec (lo b1) ++ str "," ++ dec (hi b2) ++ str ") ")
  else if k =? 3 then
    let* b1 := byte_at v 1 in
    let* buf := start (name ++ dec (hi b1) ++ str ",") in
    let* buf := if has t 32 then Ok buf else put buf (dec (lo b1) ++ str ",") in
    let* b2 := byte_at v 2 in
    let* b3 := byte_at v 3 in
    let* buf := put buf (disp b2 b3) in
    if negb (Z.land b2 240 =? 0) then put buf (str "(" ++ dec (hi b2) ++ str ")") else Ok buf
  else if k =? 4 then
    let* b2 := byte_at v 2 in
    let* b3 := byte_at v 3 in
    let* buf := start (name ++ disp b2 b3) in
    let* buf := if negb (Z.land b2 240 =? 0) then put buf (str "(" ++ dec (hi b2) ++ str ")") else Ok buf in
    if has t 32 then Ok buf else let* b1 := byte_at v 1 in put buf (str "," ++ hex2 b1)
  else if k =? 5 then
    let* b2 := byte_at v 2 in
    let* b3 := byte_at v 3 in
    let* buf := start (name ++ disp b2 b3) in
    let* b1 := byte_at v 1 in
    let* buf := put buf (str "(" ++ dec (if has t 24 then hi b1 else b1)) in
    let* buf := if negb (Z.land b2 240 =? 0) then put buf (str "," ++ dec (hi b2)) else Ok buf in
    let* b4 := byte_at v 4 in
    let* b5 := byte_at v 5 in
    let* buf := put buf (str ")," ++ disp b4 b5) in
    let* buf := put buf (str "(" ++ if has t 24 then dec (lo b1) ++ str "," else []) in
    put buf (dec (hi b4) ++ str ")")
  else UB. (* buffer is not initialized; no such type in the table *)
Definition print_inst (v : list Z) : res text :=
  let* op := byte_at v 0 in
  let* buf := match lookup op with
              | Some (n, t) => operands v n t
              | None => start (str "?" ++ hex2 op ++ str "?")
              end in
  if (256 <? length buf + 2)%nat then UB else Ok (buf ++ str " ").
