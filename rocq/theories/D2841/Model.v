(** Model of /repo/src/model2841/model2841.c: the storage control for disk drives.  It is microprogrammed: step_2841 moves all
    drives on and executes one microinstruction, model2841_dev is its connection to the channel.
    The drives are those of Dasd.Model; a register is a byte.
    Not modelled: log messages, the disassembly of microinstructions, the panel, srv_req (it is never set), the configuration;
    the contents of the control store are any. *)
From Verif Require Export Dasd.Model.
From Verif Require Export Chan.Bus.
Open Scope Z_scope.

(** The registers of struct _2841_context, model2841.h:84-170. *)
Inductive reg := GL | BY | BX | FR | KL | DL | DH | OP | GP | UR | DW | DR | ER | ST | SC | IG | FT | FC.
Definition reg_eq (x y : reg) : {x = y} + {x <> y}. Proof. decide equality. Defined.
Definition put (r : reg) (v : Z) (f : reg -> Z) : reg -> Z := fun x => if reg_eq x r then v else f x.

(** struct _2841_context, model2841.h:52-175, without the fields that are never used.  cur_disk is the number of the drive it
    points to. *)
Record ctx := mkC {
  c_r : reg -> Z; c_a : Z; c_b : Z; c_alu : Z; c_carry : bool; c_nz : bool; c_wx : Z; c_index : bool;
  c_cur : option nat; c_unit : Z; c_disk : list (option dasd);
  c_addr : Z; c_bo : Z; c_tags : tags; c_sel : bool; c_req : bool; c_opri : bool; c_addrd : bool; c_tr1 : bool; c_tr2 : bool;
  c_srvi : bool; c_svc : bool; c_stai : bool }.
Definition set_r x (s : ctx) := mkC x (c_a s) (c_b s) (c_alu s) (c_carry s) (c_nz s) (c_wx s) (c_index s) (c_cur s) (c_unit s) (c_disk s) (c_addr s) (c_bo s) (c_tags s) (c_sel s) (c_req s) (c_opri s) (c_addrd s) (c_tr1 s) (c_tr2 s) (c_srvi s) (c_svc s) (c_stai s).
Definition set_a x (s : ctx) := mkC (c_r s) x (c_b s) (c_alu s) (c_carry s) (c_nz s) (c_wx s) (c_index s) (c_cur s) (c_unit s) (c_disk s) (c_addr s) (c_bo s) (c_tags s) (c_sel s) (c_req s) (c_opri s) (c_addrd s) (c_tr1 s) (c_tr2 s) (c_srvi s) (c_svc s) (c_stai s).
Definition set_b x (s : ctx) := mkC (c_r s) (c_a s) x (c_alu s) (c_carry s) (c_nz s) (c_wx s) (c_index s) (c_cur s) (c_unit s) (c_disk s) (c_addr s) (c_bo s) (c_tags s) (c_sel s) (c_req s) (c_opri s) (c_addrd s) (c_tr1 s) (c_tr2 s) (c_srvi s) (c_svc s) (c_stai s).
Definition set_alu x (s : ctx) := mkC (c_r s) (c_a s) (c_b s) x (c_carry s) (c_nz s) (c_wx s) (c_index s) (c_cur s) (c_unit s) (c_disk s) (c_addr s) (c_bo s) (c_tags s) (c_sel s) (c_req s) (c_opri s) (c_addrd s) (c_tr1 s) (c_tr2 s) (c_srvi s) (c_svc s) (c_stai s).
Definition set_carry x (s : ctx) := mkC (c_r s) (c_a s) (c_b s) (c_alu s) x (c_nz s) (c_wx s) (c_index s) (c_cur s) (c_unit s) (c_disk s) (c_addr s) (c_bo s) (c_tags s) (c_sel s) (c_req s) (c_opri s) (c_addrd s) (c_tr1 s) (c_tr2 s) (c_srvi s) (c_svc s) (c_stai s).
Definition set_nz x (s : ctx) := mkC (c_r s) (c_a s) (c_b s) (c_alu s) (c_carry s) x (c_wx s) (c_index s) (c_cur s) (c_unit s) (c_disk s) (c_addr s) (c_bo s) (c_tags s) (c_sel s) (c_req s) (c_opri s) (c_addrd s) (c_tr1 s) (c_tr2 s) (c_srvi s) (c_svc s) (c_stai s).
Definition set_wx x (s : ctx) := mkC (c_r s) (c_a s) (c_b s) (c_alu s) (c_carry s) (c_nz s) x (c_index s) (c_cur s) (c_unit s) (c_disk s) (c_addr s) (c_bo s) (c_tags s) (c_sel s) (c_req s) (c_opri s) (c_addrd s) (c_tr1 s) (c_tr2 s) (c_srvi s) (c_svc s) (c_stai s).
Definition set_index x (s : ctx) := mkC (c_r s) (c_a s) (c_b s) (c_alu s) (c_carry s) (c_nz s) (c_wx s) x (c_cur s) (c_unit s) (c_disk s) (c_addr s) (c_bo s) (c_tags s) (c_sel s) (c_req s) (c_opri s) (c_addrd s) (c_tr1 s) (c_tr2 s) (c_srvi s) (c_svc s) (c_stai s).
Definition set_cur x (s : ctx) := mkC (c_r s) (c_a s) (c_b s) (c_alu s) (c_carry s) (c_nz s) (c_wx s) (c_index s) x (c_unit s) (c_disk s) (c_addr s) (c_bo s) (c_tags s) (c_sel s) (c_req s) (c_opri s) (c_addrd s) (c_tr1 s) (c_tr2 s) (c_srvi s) (c_svc s) (c_stai s).
Definition set_unit x (s : ctx) := mkC (c_r s) (c_a s) (c_b s) (c_alu s) (c_carry s) (c_nz s) (c_wx s) (c_index s) (c_cur s) x (c_disk s) (c_addr s) (c_bo s) (c_tags s) (c_sel s) (c_req s) (c_opri s) (c_addrd s) (c_tr1 s) (c_tr2 s) (c_srvi s) (c_svc s) (c_stai s).
Definition set_disk x (s : ctx) := mkC (c_r s) (c_a s) (c_b s) (c_alu s) (c_carry s) (c_nz s) (c_wx s) (c_index s) (c_cur s) (c_unit s) x (c_addr s) (c_bo s) (c_tags s) (c_sel s) (c_req s) (c_opri s) (c_addrd s) (c_tr1 s) (c_tr2 s) (c_srvi s) (c_svc s) (c_stai s).
Definition set_addr x (s : ctx) := mkC (c_r s) (c_a s) (c_b s) (c_alu s) (c_carry s) (c_nz s) (c_wx s) (c_index s) (c_cur s) (c_unit s) (c_disk s) x (c_bo s) (c_tags s) (c_sel s) (c_req s) (c_opri s) (c_addrd s) (c_tr1 s) (c_tr2 s) (c_srvi s) (c_svc s) (c_stai s).
Definition set_bo x (s : ctx) := mkC (c_r s) (c_a s) (c_b s) (c_alu s) (c_carry s) (c_nz s) (c_wx s) (c_index s) (c_cur s) (c_unit s) (c_disk s) (c_addr s) x (c_tags s) (c_sel s) (c_req s) (c_opri s) (c_addrd s) (c_tr1 s) (c_tr2 s) (c_srvi s) (c_svc s) (c_stai s).
Definition set_tags x (s : ctx) := mkC (c_r s) (c_a s) (c_b s) (c_alu s) (c_carry s) (c_nz s) (c_wx s) (c_index s) (c_cur s) (c_unit s) (c_disk s) (c_addr s) (c_bo s) x (c_sel s) (c_req s) (c_opri s) (c_addrd s) (c_tr1 s) (c_tr2 s) (c_srvi s) (c_svc s) (c_stai s).
Definition set_sel x (s : ctx) := mkC (c_r s) (c_a s) (c_b s) (c_alu s) (c_carry s) (c_nz s) (c_wx s) (c_index s) (c_cur s) (c_unit s) (c_disk s) (c_addr s) (c_bo s) (c_tags s) x (c_req s) (c_opri s) (c_addrd s) (c_tr1 s) (c_tr2 s) (c_srvi s) (c_svc s) (c_stai s).
Definition set_req x (s : ctx) := mkC (c_r s) (c_a s) (c_b s) (c_alu s) (c_carry s) (c_nz s) (c_wx s) (c_index s) (c_cur s) (c_unit s) (c_disk s) (c_addr s) (c_bo s) (c_tags s) (c_sel s) x (c_opri s) (c_addrd s) (c_tr1 s) (c_tr2 s) (c_srvi s) (c_svc s) (c_stai s).
Definition set_opri x (s : ctx) := mkC (c_r s) (c_a s) (c_b s) (c_alu s) (c_carry s) (c_nz s) (c_wx s) (c_index s) (c_cur s) (c_unit s) (c_disk s) (c_addr s) (c_bo s) (c_tags s) (c_sel s) (c_req s) x (c_addrd s) (c_tr1 s) (c_tr2 s) (c_srvi s) (c_svc s) (c_stai s).
Definition set_addrd x (s : ctx) := mkC (c_r s) (c_a s) (c_b s) (c_alu s) (c_carry s) (c_nz s) (c_wx s) (c_index s) (c_cur s) (c_unit s) (c_disk s) (c_addr s) (c_bo s) (c_tags s) (c_sel s) (c_req s) (c_opri s) x (c_tr1 s) (c_tr2 s) (c_srvi s) (c_svc s) (c_stai s).
Definition set_tr1 x (s : ctx) := mkC (c_r s) (c_a s) (c_b s) (c_alu s) (c_carry s) (c_nz s) (c_wx s) (c_index s) (c_cur s) (c_unit s) (c_disk s) (c_addr s) (c_bo s) (c_tags s) (c_sel s) (c_req s) (c_opri s) (c_addrd s) x (c_tr2 s) (c_srvi s) (c_svc s) (c_stai s).
Definition set_tr2 x (s : ctx) := mkC (c_r s) (c_a s) (c_b s) (c_alu s) (c_carry s) (c_nz s) (c_wx s) (c_index s) (c_cur s) (c_unit s) (c_disk s) (c_addr s) (c_bo s) (c_tags s) (c_sel s) (c_req s) (c_opri s) (c_addrd s) (c_tr1 s) x (c_srvi s) (c_svc s) (c_stai s).
Definition set_srvi x (s : ctx) := mkC (c_r s) (c_a s) (c_b s) (c_alu s) (c_carry s) (c_nz s) (c_wx s) (c_index s) (c_cur s) (c_unit s) (c_disk s) (c_addr s) (c_bo s) (c_tags s) (c_sel s) (c_req s) (c_opri s) (c_addrd s) (c_tr1 s) (c_tr2 s) x (c_svc s) (c_stai s).
Definition set_svc x (s : ctx) := mkC (c_r s) (c_a s) (c_b s) (c_alu s) (c_carry s) (c_nz s) (c_wx s) (c_index s) (c_cur s) (c_unit s) (c_disk s) (c_addr s) (c_bo s) (c_tags s) (c_sel s) (c_req s) (c_opri s) (c_addrd s) (c_tr1 s) (c_tr2 s) (c_srvi s) x (c_stai s).
Definition set_stai x (s : ctx) := mkC (c_r s) (c_a s) (c_b s) (c_alu s) (c_carry s) (c_nz s) (c_wx s) (c_index s) (c_cur s) (c_unit s) (c_disk s) (c_addr s) (c_bo s) (c_tags s) (c_sel s) (c_req s) (c_opri s) (c_addrd s) (c_tr1 s) (c_tr2 s) (c_srvi s) (c_svc s) x.
Definition setr (r : reg) (v : Z) (s : ctx) : ctx := set_r (put r v (c_r s)) s.
Definition B0 := 128. Definition B1 := 64. Definition B2 := 32. Definition B3 := 16.
Definition B4 := 8. Definition B5 := 4. Definition B6 := 2. Definition B7 := 1.
Definition on (s : ctx) (r : reg) (m : Z) : bool := negb (Z.land (c_r s r) m =? 0).
(** R |= m and R &= ~m *)
Definition sets (r : reg) (m : Z) (s : ctx) : ctx := setr r (Z.lor (c_r s r) m) s.
Definition clrs (r : reg) (m : Z) (s : ctx) : ctx := setr r (Z.land (c_r s r) (Z.lxor 255 m)) s.

Definition set_nth {A} (i : nat) (x : A) (l : list A) : list A := firstn i l ++ x :: skipn (S i) l.
Definition put_disk (i : nat) (d : dasd) (s : ctx) : ctx := set_disk (set_nth i (Some d) (c_disk s)) s.

(** One drive in the loop at the start of step_2841, model2841.c:101-140.  am is not used behind the call, so its value in
    front of a read does not matter. *)
Definition gated (s : ctx) (i : nat) : bool :=
  negb (Z.land (c_r s UR) (Z.shiftr 128 (Z.of_nat i)) =? 0) && (Z.land (c_r s FT) 129 =? 129) && on s FC 4.
Definition one_drive (s : ctx) (i : nat) : res ctx :=
  match nth_error (c_disk s) i with
  | Some (Some d) =>
    let* r :=
      if gated s i then
        let* r :=
          if on s FC 64 then
            let* x := dasd_read_byte d 0 0 0 in
            let s := put_disk i (fst x) s in
            Ok (if o_ret (snd x) =? 0 then s else setr DR (o_data (snd x) mod 256) (sets ST B4 s), o_ix (snd x))
          else if on s FC 128 then
            let* x := dasd_write_byte d (c_r s DR) (Z.land (c_r s FC) 1) 0 in
            let s := put_disk i (fst x) s in
            Ok (if o_ret (snd x) =? 0 then s else sets ST B4 s, o_ix (snd x))
          else let x := dasd_step d in Ok (put_disk i (fst x) s, snd x) in
        Ok (if on (fst r) ST B1 && negb (snd r =? 0) then set_index true (fst r) else fst r)
      else Ok (put_disk i (fst (dasd_step d)) s) in
    match nth_error (c_disk r) i with
    | Some (Some d) => Ok (if dasd_check_attn d then sets SC (Z.shiftr 128 (Z.of_nat i)) r else r)
    | _ => UB
    end
  | _ => Ok s
  end.
Fixpoint drives_from (l : list nat) (s : ctx) : res ctx :=
  match l with [] => Ok s | i :: r => let* s := one_drive s i in drives_from r s end.
Definition drives (s : ctx) : res ctx := drives_from (seq 0 8) (setr SC 0 s).

(** struct ROS_2841, model2841.h:29-46, without the parity bits and the note. *)
Record mi := mkMi { CA : Z; CB : Z; CK : Z; CL : Z; CH : Z; CN : Z; CD : Z; CV : Z; CC : Z; CS : Z; BP : Z }.

(** cur_disk-> *)
Definition cur (s : ctx) : res (option dasd) :=
  match c_cur s with
  | None => Ok None
  | Some i => match nth_error (c_disk s) i with Some (Some d) => Ok (Some d) | _ => UB end
  end.

(** The X6 bit, model2841.c:264-333; case 8 is in [next]. *)
Definition x6 (s : ctx) (d : option dasd) (ch : Z) : bool :=
  if ch =? 1 then true else if ch =? 2 then on s ST B0 else if ch =? 3 then on s OP B6 else if ch =? 4 then on s ST B2
  else if ch =? 5 then on s ST B4 else if ch =? 6 then on s ST B6
  else if ch =? 7 then match d with Some d => match d_type d with T2311 | T2302 => false | _ => true end | None => false end
  else if ch =? 9 then c_carry s else if ch =? 10 then cmdo (c_tags s) || on s ER B7 else if ch =? 11 then supo (c_tags s)
  else if ch =? 13 then on s OP B0 else if ch =? 14 then on s OP B2 else if ch =? 15 then on s OP B4 else false.
(** The X7 bit, model2841.c:335-410; case 6 is in [next]. *)
Definition x7 (s : ctx) (d : option dasd) (cl : Z) : bool :=
  if cl =? 1 then true else if cl =? 2 then on s ST B3 else if cl =? 3 then on s ST B5 else if cl =? 4 then on s ST B7
  else if cl =? 5 then negb (c_nz s)
  else if cl =? 7 then match d with Some d => match d_type d with T2303 | T2302 => false | _ => true end | None => false end
  else if cl =? 8 then srvo (c_tags s) else if cl =? 9 then (c_srvi s && on s IG B2) || (c_srvi s && srvo (c_tags s))
  else if cl =? 10 then c_sel s else if cl =? 11 then on s OP B1 else if cl =? 12 then on s OP B3 else if cl =? 13 then on s OP B5
  else if cl =? 14 then c_index s else if cl =? 15 then on s OP B7 else false.
(** The address of the next microinstruction but for the A bus, model2841.c:261-410. *)
Definition next (s : ctx) (d : option dasd) (m : mi) : Z :=
  let n := Z.lor (Z.land (c_wx s) 3840) (CN m) in
  let n := if CH m =? 8 then Z.lor (Z.land n 255) (Z.shiftl (Z.land (CK m) 15) 8) else Z.lor n (if x6 s d (CH m) then 2 else 0) in
  Z.lor n (if x7 s d (CL m) then 1 else 0).

(** The B bus, model2841.c:412-427. *)
Definition bbus (s : ctx) (m : mi) : Z :=
  if CB m =? 0 then 0 else if CB m =? 1 then c_r s BY else if CB m =? 2 then CK m mod 256 else if CB m =? 3 then c_r s DR else c_b s.

(** The registers on the A bus with a number of their own, model2841.c:446-483. *)
Definition a_reg (ca : Z) : option reg :=
  nth (Z.to_nat ca) [None; Some GL; Some BY; Some BX; Some FR; Some KL; Some DL; Some DH; Some OP; Some GP; Some UR; Some DW; Some DR; Some ER] None.
(** The A bus, model2841.c:429-552: the state with the new A bus. *)
Definition abus (s : ctx) (d : option dasd) (m : mi) : ctx :=
  let ca := CA m in
  if (ca =? 0) || ((18 <=? ca) && (ca <=? 27)) || (ca =? 16) then set_a 0 s
  else if ca <? 14 then
    match a_reg ca with
    | Some r => let s := set_a (c_r s r) s in
                if ca =? 12 then (if on s IG B2 then set_tr1 true s else s) else if ca =? 13 then set_srvi false s else s
    | None => s
    end
  else if ca =? 14 then
    set_a (match d with
           | Some d => match d_type d with
                       | T2303 => if on s FT B6 then 18 else 0
                       | T2311 => if on s FT B7 then 1 else 0
                       | T2302 => if on s FT B5 then 4 else 0
                       | _ => 0
                       end
           | None => 0
           end) s
  else if ca =? 15 then set_tr1 true (set_a (c_bo s mod 256) s)
  else if ca =? 28 then set_a (c_r s SC) s
  else if ca =? 29 then set_a (match d with Some d => dasd_gettags d mod 256 | None => 0 end) s
  else if ca =? 30 then match d with Some d => set_a (dasd_cur_cyl d) s | None => s end
  else if ca =? 31 then
    set_a (match d with Some d => let g := dasd_gettags d mod 256 in if Z.land g 192 =? 192 then 48 else g | None => 0 end) s
  else s.

(** The arithmetic unit, model2841.c:554-607: what comes out, and the carries. *)
Definition carry_in (s : ctx) (cc : Z) : Z :=
  if cc =? 6 then (if on s ST B3 then 1 else 0) else if (cc =? 1) || (cc =? 5) then 1 else 0.
Definition adds (cc : Z) : bool := (cc =? 6) || (cc =? 1) || (cc =? 5) || (cc =? 0) || (cc =? 4).
Definition alu (a b c cc : Z) : Z :=
  if adds cc then (a + b + c) mod 256 else if cc =? 2 then Z.land a b else if cc =? 3 then Z.lor a b else Z.lxor a b.
Definition carries (a b o cc : Z) : Z :=
  if adds cc then Z.lor (Z.land a b) (Z.land (Z.lxor a b) (Z.lxor 255 o)) else 0.

(** The destination, model2841.c:609-688. *)
Definition d_reg (cd : Z) : option reg :=
  nth (Z.to_nat cd) [None; Some GL; Some BY; Some BX; Some FR; Some KL; Some DL; Some DH; Some OP; Some GP; Some UR; Some DW; Some DR; Some FT; Some FC; Some IG] None.
Fixpoint first_unit (n : nat) (i : nat) (u : Z) : option nat :=
  match n with O => None | S n => if negb (Z.land u (Z.shiftr 128 (Z.of_nat i)) =? 0) then Some i else first_unit n (S i) u end.
Definition select (s : ctx) : ctx :=
  match first_unit 8 0 (c_r s UR) with
  | Some i => set_unit (Z.of_nat i) (set_cur (match nth_error (c_disk s) i with Some (Some _) => Some i | _ => None end) s)
  | None => set_cur None s
  end.
Definition tag_reg (r : reg) (s : ctx) (m : mi) : ctx :=
  let o := c_alu s in
  setr r (if Z.land (CN m) 4 =? 0 then Z.land (c_r s r) (Z.lxor 255 o) else Z.lor (Z.land (c_r s r) (Z.lxor 255 o)) o) s.
Definition to_drive (s : ctx) (upd : bool) : res ctx :=
  match c_cur s with
  | None => Ok s
  | Some i =>
    let* d := cur s in
    match d with
    | None => UB
    | Some d =>
      let* x := dasd_settags d (c_r s FT) (c_r s FC) in
      if upd && (c_r s FT =? 129) && on s FC 192 then let* d := dasd_update (fst x) in Ok (put_disk i d s) else Ok (put_disk i (fst x) s)
    end
  end.
Definition dest (s : ctx) (m : mi) : res ctx :=
  if CD m =? 10 then Ok (select (setr UR (c_alu s) s))
  else if CD m =? 13 then to_drive (tag_reg FT s m) true
  else if CD m =? 14 then to_drive (tag_reg FC s m) false
  else if CD m =? 15 then let s := setr IG (c_alu s) s in Ok (if on s IG B0 && negb (c_srvi s) then set_svc true s else s)
  else match d_reg (CD m) with Some r => Ok (setr r (c_alu s) s) | None => Ok s end.

(** ST3 from the carry, model2841.c:690-706, and the status bits, 708-759. *)
Definition st_carry (s : ctx) (m : mi) : ctx :=
  if (CC m =? 4) || (CC m =? 5) || (CC m =? 6) then (if c_carry s then sets ST B3 s else clrs ST B3 s) else s.
Definition status (s : ctx) (m : mi) : ctx :=
  let cs := CS m in
  if cs =? 1 then clrs ST B0 s else if cs =? 2 then sets ST B0 s else if cs =? 3 then set_index false (clrs ST B1 s)
  else if cs =? 4 then sets ST B1 s else if cs =? 5 then clrs ST B2 s else if cs =? 6 then (if c_nz s then sets ST B2 s else s)
  else if cs =? 7 then clrs ST B3 s else if cs =? 8 then sets ST B3 s else if cs =? 9 then clrs ST B4 s
  else if cs =? 10 then clrs ST B5 s else if cs =? 11 then sets ST B5 s else if cs =? 12 then clrs ST B6 s
  else if cs =? 13 then sets ST B6 s else if cs =? 14 then clrs ST B7 s else if cs =? 15 then sets ST B7 s else s.

(** step_2841, model2841.c:88-769. *)
Definition micro (s : ctx) (m : mi) : res ctx :=
  let* d := cur s in
  let n := next s d m in
  let s := set_b (bbus s m) s in
  let s := abus s d m in
  let n := if CL m =? 6 then Z.lor (Z.land n 3840) (c_a s) else n in
  let s := if CV m =? 0 then s else set_b (255 - c_b s) s in
  let o := alu (c_a s) (c_b s) (carry_in s (CC m)) (CC m) in
  let s := set_carry (negb (Z.land (carries (c_a s) (c_b s) o (CC m)) 128 =? 0)) (set_nz (negb (o =? 0)) s) in
  let s := set_alu (if BP m =? 0 then o else c_a s) s in
  let* s := dest s m in
  let s := status (st_carry s m) m in
  Ok (set_wx n s).
Definition fetch (ros : Z -> mi) (wx : Z) : res mi := if (0 <=? wx) && (wx <? 4096) then Ok (ros wx) else UB.
Definition step (ros : Z -> mi) (s : ctx) : res ctx :=
  let* s := drives s in
  let* m := fetch ros (c_wx s) in
  micro s m.

(** *** model2841_dev, model2841.c:772-992 *)
Definition bus := (ctx * tags * Z)%type.
Definition dw_out (s : ctx) : res Z := with_parity (c_r s DW).
(** 803-812: address in. *)
Definition dev_adri (s : ctx) (t : tags) (bi : Z) : res bus :=
  if on s IG B7 then let* b := dw_out s in Ok (set_addrd true (set_tr1 false (set_opri true s)), Bus.set_adri true t, b)
  else Ok (s, Bus.set_adri false t, bi).
(** 829-858: address out. *)
Definition dev_adro (s : ctx) (t : tags) (bo bi : Z) : res bus :=
  if adro t then
    let '(s, t, bi) :=
      if Z.land bo 240 =? c_addr s then
        if on s IG B5 then (sets ER (Z.lor B3 B7) (set_stai true s), Bus.set_selo false (Bus.set_stai true t), 336)
        else (sets ER B1 (set_addrd true s), t, bi)
      else (set_addrd false s, t, bi) in
    let* p := bad_parity bo in
    Ok (if p then sets ER B2 s else s, t, bi)
  else Ok (clrs ER B1 s, if on s IG B5 then Bus.set_stai false t else t, bi).
(** 860-871: operational in dropped. *)
Definition dev_drop (s : ctx) (t : tags) : ctx * tags :=
  if on s IG B1 then
    (clrs ER B7 (clrs IG B1 (set_srvi false (set_stai false (set_addrd false (set_sel false (set_opri false s)))))),
     Bus.set_opri false (Bus.set_srvi false (Bus.set_stai false t)))
  else (s, t).
(** 878-906: requests. *)
Definition dev_req (s : ctx) (t : tags) : ctx * tags :=
  let '(s, t) :=
    if c_sel s then (s, t)
    else
      let s := if on s IG B6 then set_req true s else s in
      let s := if on s IG B4 && negb (c_r s SC =? 0) then set_req true s else s in
      let t := if c_req s then Bus.set_reqi true t else t in
      (s, if on s IG B5 && stai t && srvo t then Bus.set_stai false t else t) in
  if c_req s && reqi t && selo t && negb (supo t) then (set_sel true (set_req false s), Bus.set_reqi false t) else (s, t).
(** 908-921: ending status by polling. *)
Definition dev_poll (s : ctx) (t : tags) (bi : Z) : res bus :=
  if negb (c_sel s) && on s IG B5 && selo t && reqi t && negb (adro t) then
    let* b := dw_out s in
    Ok (set_addrd true (set_tr2 false (set_tr1 false s)), Bus.set_adri true (Bus.set_opri true (Bus.set_reqi false (Bus.set_selo false t))), b)
  else Ok (s, t, bi).
(** 923-990: the transfer of bytes. *)
Definition dev_data (s : ctx) (t : tags) (bo bi : Z) : res bus :=
  if c_sel s || c_addrd s then
    let t := Bus.set_selo false t in
    let* r := if on s IG B7 then let* b := dw_out s in Ok (set_tr1 false (set_opri true s), Bus.set_adri true t, b)
              else Ok (s, Bus.set_adri false t, bi) in
    let '(s, t, bi) := r in
    let* p := bad_parity bo in
    let s := if p then sets ER B2 s else clrs ER B2 s in
    let s := set_tr2 (c_svc s) s in
    let s := if c_srvi s then set_svc false s else s in
    let s := if (on s IG B2 && c_tr1 s) || (on s IG B0 && negb (c_srvi s)) then set_svc true s else s in
    let* r := if c_tr2 s then let* b := dw_out s in Ok (set_srvi true s, Bus.set_srvi true t, b) else Ok (s, t, bi) in
    let '(s, t, bi) := r in
    let '(s, t) :=
      if (c_tr1 s && negb (on s IG B2)) || negb (c_srvi s) || (on s IG B2 && srvo t && negb (c_tr2 s))
      then (set_srvi false s, Bus.set_srvi false t) else (s, t) in
    let s := set_tr1 false s in
    if on s IG B5 then let* b := dw_out s in Ok (clrs ER B3 (set_stai true s), Bus.set_stai true t, b)
    else Ok (set_stai false s, Bus.set_stai false t, bi)
  else Ok (s, t, bi).
Definition dev (s : ctx) (t : tags) (bo bi : Z) : res bus :=
  if negb (opro t) && negb (supo t) then
    Ok (set_wx 0 (set_addrd false (set_sel false s)),
        if c_sel s then Bus.set_opri false (Bus.set_adri false (Bus.set_srvi false (Bus.set_stai false t))) else t, bi)
  else
    let s := set_tags t (set_bo (Z.land bo 255) s) in
    let s := if on s IG B3 then set_req true s else s in
    let* r := dev_adri s t bi in
    let '(s, t, bi) := r in
    let '(s, t) := if negb (on s IG B5) && c_stai s then (set_stai false s, Bus.set_stai false t) else (s, t) in
    let s := set_sel (selo t && c_addrd s) s in
    let* r := dev_adro s t bo bi in
    let '(s, t, bi) := r in
    let '(s, t) := dev_drop s t in
    let t := if c_opri s then Bus.set_opri true t else t in
    let '(s, t) := dev_req s t in
    let* r := dev_poll s t bi in
    let '(s, t, bi) := r in
    dev_data s t bo bi.

(** A control as model2841_create leaves it, model2841.c:1028-1062. *)
Definition no_tags := mkT false false false false false false false false false false false false.
Definition new_ctrl (addr : Z) : ctx :=
  mkC (fun _ => 0) 0 0 0 false false 0 false None 0 (repeat None 8) (Z.land addr 255) 0 no_tags
      false false false false false false false false false.

(** model2302_create, model2841.c:1131-1162, as far as it goes when there is memory for the drive: calloc returns a pointer
    that is not NULL, which is taken as the failure.  The result: the control, and whether the drive was made. *)
Definition create_2302 (s : ctx) (addr : Z) : ctx * bool :=
  let i := Z.to_nat (Z.land addr 7) in
  match nth_error (c_disk s) i with
  | Some (Some _) => (s, false)
  | _ => (put_disk i (new_drive T2303) s, false)
  end.
