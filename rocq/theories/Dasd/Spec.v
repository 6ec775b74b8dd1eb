(** What is expected of a disk drive, stated without the position machinery of dasd.c. *)
From Verif Require Export Dasd.Model.

(** *** Histories of a drive *)

(** What the control unit, and the clock, can do to a drive that has a pack on it. *)
Inductive dop :=
| ORead (data am ix : Z)     (* dasd_read_byte *)
| OWrite (data am ix : Z)    (* dasd_write_byte *)
| OStep                      (* dasd_step *)
| OTags (ft fc : Z)          (* dasd_settags *)
| OUpdate                    (* dasd_update *)
| OSeek.                     (* the seek is over *)

Definition do_op (s : dasd) (o : dop) : res dasd :=
  match o with
  | ORead d a i => let* r := dasd_read_byte s d a i in Ok (fst r)
  | OWrite d a i => let* r := dasd_write_byte s d a i in Ok (fst r)
  | OStep => Ok (fst (dasd_step s))
  | OTags ft fc => let* r := dasd_settags s ft fc in Ok (fst r)
  | OUpdate => dasd_update s
  | OSeek => seek_callback s
  end.

Fixpoint do_ops (s : dasd) (l : list dop) : res dasd :=
  match l with
  | [] => Ok s
  | o :: r => let* s := do_op s o in do_ops s r
  end.

(** Arguments as the C types allow them. *)
Definition byte (x : Z) : Prop := 0 <= x < 256.
Definition op_bytes (o : dop) : Prop :=
  match o with
  | ORead d a i => byte d /\ byte a /\ byte i
  | OWrite d a i => byte d /\ byte a /\ byte i
  | OTags ft fc => byte ft /\ byte fc
  | _ => True
  end.

(** *** Geometry: which bytes of the image belong to which cylinder and track *)

Definition cyl_size (t : dtype) : Z := ty_tsize t * ty_heads t.
Definition in_cyl (t : dtype) (c i : Z) : Prop := 512 + c * cyl_size t <= i < 512 + (c + 1) * cyl_size t.
Definition in_track (t : dtype) (c h i : Z) : Prop :=
  512 + c * cyl_size t + h * ty_tsize t <= i < 512 + c * cyl_size t + (h + 1) * ty_tsize t.

(** The bytes of cylinder [c] of an image. *)
Definition cyl_of (t : dtype) (c : Z) (f : list Z) : list Z :=
  firstn (Z.to_nat (cyl_size t)) (skipn (Z.to_nat (512 + c * cyl_size t)) f).

(** A pack is on the drive and the drive has the geometry of the pack. *)
Definition mounted (s : dasd) : Prop :=
  d_tsize s = ty_tsize (d_type s)
  /\ Z.of_nat (length (d_cbuf s)) = cyl_size (d_type s)
  /\ 0 <= d_cyl s < 256 /\ 0 <= d_ncyl s < 256
  /\ d_fpos s = 512 + d_cyl s * cyl_size (d_type s)
  /\ 0 <= d_head s < ty_heads (d_type s)
  /\ exists f, d_file s = Some f.

(** The image file. *)
Definition image (s : dasd) : list Z := match d_file s with Some f => f | None => [] end.

(** The bytes of a list at a place. *)
Definition at_pos (l : list Z) (p : Z) (b : list Z) : Prop :=
  0 <= p /\ firstn (length b) (skipn (Z.to_nat p) l) = b.

(** *** What a track reads as *)

(** Cyclic check bytes of a field: the exclusive or, from 0xff, of the bytes in even and in odd places. *)
Fixpoint check2 (a b : Z) (l : list Z) : Z * Z :=
  match l with
  | [] => (a, b)
  | [x] => (Z.lxor a x, b)
  | x :: y :: r => check2 (Z.lxor a x) (Z.lxor b y) r
  end.

(** The bytes behind a field; a 2314 adds two constant ones. *)
Definition tail14 (t : dtype) : list Z := match t with T2314 => [1; 255] | _ => [] end.
Definition checked (t : dtype) (l : list Z) : list Z :=
  l ++ [fst (check2 255 255 l); snd (check2 255 255 l)] ++ tail14 t.
(** The byte a field starts with. *)
Definition sync_of (t : dtype) (v : Z) : Z := match t with T2314 => v | _ => 6 end.

(** A count key data record. *)
Record ckd := mkCkd { k_c0 : Z; k_c1 : Z; k_h0 : Z; k_h1 : Z; k_r : Z; k_key : list Z; k_data : list Z }.
Definition count_of (r : ckd) : list Z :=
  [k_c0 r; k_c1 r; k_h0 r; k_h1 r; k_r r; Z.of_nat (length (k_key r));
   Z.of_nat (length (k_data r)) / 256; Z.of_nat (length (k_data r)) mod 256].
Definition ckd_bytes (r : ckd) : list Z := count_of r ++ k_key r ++ k_data r.
Definition ckd_ok (r : ckd) : Prop :=
  byte (k_c0 r) /\ byte (k_c1 r) /\ byte (k_h0 r) /\ byte (k_h1 r) /\ byte (k_r r)
  /\ Forall byte (k_key r) /\ Forall byte (k_data r)
  /\ (length (k_key r) < 256)%nat /\ Z.of_nat (length (k_data r)) < 65536
  /\ Z.land (Z.land (Z.land (k_c0 r) (k_c1 r)) (k_h0 r)) (k_h1 r) <> 255.

(** A track as it lies in the image: home address, records (the first one is R0), end mark. *)
Definition track_bytes (ha : list Z) (l : list ckd) : list Z :=
  ha ++ concat (map ckd_bytes l) ++ [255; 255; 255; 255].

(** What the head delivers for it.  The count field of R0 starts with a zero byte, that of any other
    record with a flag byte that tells odd from even records and carries the overflow bit, which is
    taken out of the cylinder number. *)
Definition key_reads (t : dtype) (r : ckd) : list Z :=
  match k_key r with [] => [] | k => sync_of t 2 :: checked t k end.
Definition data_reads (t : dtype) (r : ckd) : list Z := sync_of t 1 :: checked t (k_data r).
Definition ha_reads (t : dtype) (ha : list Z) : list Z :=
  sync_of t 5 :: ha ++ [snd (check2 255 255 ha); fst (check2 255 255 ha)] ++ tail14 t.
Definition r0_reads (t : dtype) (r : ckd) : list Z :=
  let c := count_of r in
  sync_of t 3 :: 0 :: checked t c ++ key_reads t r ++ data_reads t r.
Definition flag_of (n : Z) (r : ckd) : Z :=
  (if 128 <=? k_c0 r then 64 else 0) + (if Z.odd n then 128 else 0).
Definition rn_reads (t : dtype) (n : Z) (r : ckd) : list Z :=
  let c := (k_c0 r mod 128) :: tl (count_of r) in
  let k := check2 255 255 c in
  let f := flag_of n r in
  sync_of t 6 :: f :: c ++ [fst k; Z.lxor f (snd k)] ++ tail14 t ++ key_reads t r ++ data_reads t r.
Fixpoint rs_reads (t : dtype) (n : Z) (l : list ckd) : list Z :=
  match l with [] => [] | r :: l => rn_reads t n r ++ rs_reads t (n + 1) l end.
Definition track_reads (t : dtype) (ha : list Z) (r0 : ckd) (l : list ckd) : list Z :=
  ha_reads t ha ++ r0_reads t r0 ++ rs_reads t 1 l.

(** The place it takes on the track, in bytes that pass under the head. *)
Definition tail_len (t : dtype) : Z := 2 + Z.of_nat (length (tail14 t)).
Definition field_len (t : dtype) (n : Z) : Z := ty_g2 t + 1 + n + tail_len t.
Definition body_len (t : dtype) (r : ckd) : Z :=
  (match k_key r with [] => 0 | k => field_len t (Z.of_nat (length k)) end)
  + field_len t (Z.of_nat (length (k_data r))).
Definition rn_len (t : dtype) (r : ckd) : Z := field_len t 9 + body_len t r.
Fixpoint rs_len (t : dtype) (l : list ckd) : Z :=
  match l with [] => 0 | r :: l => rn_len t r + rs_len t l end.
Definition r0_len (t : dtype) (r : ckd) : Z := ty_g1 t + 1 + 9 + tail_len t + body_len t r.
Definition ha_len (t : dtype) : Z := ty_g4 t + 1 + 5 + tail_len t.
(** Home address, all records and the search for the next one fit between two index points. *)
Definition fits (t : dtype) (r0 : ckd) (l : list ckd) : Prop :=
  ha_len t + r0_len t r0 + rs_len t l + ty_g2 t + 1 <= ty_bpt t.

(** [n] calls of dasd_read_byte, and the bytes for which it returned 1. *)
Fixpoint read_calls (n : nat) (s : dasd) : res (dasd * list Z) :=
  match n with
  | O => Ok (s, [])
  | S m =>
    let* a := dasd_read_byte s 0 0 0 in
    let* b := read_calls m (fst a) in
    Ok (fst b, (if o_ret (snd a) =? 1 then [o_data (snd a)] else []) ++ snd b)
  end.

(** [dasd_write_byte] for each of the bytes, rate + 1 calls for each. *)
Fixpoint write_calls (n : nat) (s : dasd) (d : Z) : res dasd :=
  match n with
  | O => Ok s
  | S m => let* a := dasd_write_byte s d 0 0 in write_calls m (fst a) d
  end.
Fixpoint write_slots (s : dasd) (l : list Z) : res dasd :=
  match l with
  | [] => Ok s
  | d :: r => let* s := write_calls 14 s d in write_slots s r
  end.

(** *** Operations that stay inside the buffer *)

(** The tags select a head: tag 1 with set head. *)
Definition selects_head (ft : Z) : bool := bit ft 1 && bit ft 32.
(** The tags make the drive look for its place on the track. *)
Definition locates (ft fc : Z) : bool := bit ft 1 && bit ft 128 && (bit fc 128 || (bit fc 64 && bit fc 4)).
(** The head sent exists, and the place is looked for on any head but the last one. *)
Definition op_safe (s : dasd) (o : dop) : Prop :=
  match o with
  | OTags ft fc =>
      (selects_head ft = true -> Z.land fc 15 < ty_heads (d_type s))
      /\ (locates ft fc = true -> d_state s = PUnk -> d_head s + 1 < ty_heads (d_type s))
  | OUpdate => d_head s + 1 < ty_heads (d_type s) /\ d_cpos s <= ty_bpt (d_type s) + 1
  | _ => True
  end.
Fixpoint safe_run (s : dasd) (l : list dop) : Prop :=
  match l with
  | [] => True
  | o :: r => op_safe s o /\ forall s', do_op s o = Ok s' -> safe_run s' r
  end.

(** The drive as attaching leaves it, or between two revolutions. *)
Definition at_index (s : dasd) : Prop :=
  d_state s = PIndex /\ d_cpos s = 0 /\ 0 <= d_count s < 65536 /\ 0 <= d_tpos s < 65536
  /\ 0 <= d_tstart s /\ d_tstart s + d_tsize s <= cyl_size (d_type s).

(** Just at the index, with all counters at their start. *)
Definition at_start (s : dasd) : Prop := d_state s = PIndex /\ d_count s = 0 /\ d_cpos s = 0 /\ d_step s = 0.

(** *** Persistence *)

(** A history without a read. *)
Definition no_read (l : list dop) : Prop := Forall (fun o => match o with ORead _ _ _ => False | _ => True end) l.
(** The cylinders under the arm during a history. *)
Fixpoint visited (s : dasd) (l : list dop) : list Z :=
  d_cyl s :: match l with
             | [] => []
             | o :: r => match do_op s o with Ok s' => visited s' r | _ => [] end
             end.
(** Nothing is written while the arm is at cylinder [c]. *)
Fixpoint no_write_at (c : Z) (s : dasd) (l : list dop) : Prop :=
  match l with
  | [] => True
  | o :: r => match o with OWrite _ _ _ => d_cyl s <> c | _ => True end
              /\ forall s', do_op s o = Ok s' -> no_write_at c s' r
  end.

(** *** Volume labels *)

(** The characters that EBCDIC has: the printable ones but [[], []] and [|]. *)
Definition label_char (c : Z) : Prop := 32 <= c < 127 /\ c <> 91 /\ c <> 93 /\ c <> 124.
(** What vol_label holds for a volume id. *)
Definition label_of (volid : list Z) : list Z := volid ++ repeat 32 (8 - length volid) ++ [0].

(** *** A drive without a pack, as it is after calloc and after dasd_detach *)

Definition label_ok (label : list Z) : Prop := length label = 9%nat /\ Forall (fun c => 0 <= c < 128) label.
Definition no_pack (s : dasd) : Prop :=
  d_cbuf s = [] /\ 0 <= d_ncyl s < 256 /\ 0 <= d_head s < ty_heads (d_type s)
  /\ label_ok (d_label s) /\ nth_error (d_label s) 8 = Some 0.

(** *** Writing *)

(** The byte that ends the gap before a data field. *)
Definition sync_byte (t : dtype) : Z := match t with T2314 => 9 | _ => 14 end.
(** The record with other data. *)
Definition with_data (r : ckd) (l : list Z) : ckd := mkCkd (k_c0 r) (k_c1 r) (k_h0 r) (k_h1 r) (k_r r) (k_key r) l.
(** What is sent for a record without a key: gap, sync byte, flag byte, count field, check bytes; gap, sync byte, data,
    check bytes. *)
Definition sent (t : dtype) (m : Z) (r : ckd) (x y : Z) (n : nat) (u v : Z) : list Z :=
  255 :: 14 :: flag_of m r :: (k_c0 r mod 128) :: tl (count_of r) ++ [x; y] ++ repeat 0 n ++ sync_byte t :: k_data r ++ [u; v].
(** The check bytes behind the count field of a record that is not R0. *)
Definition count_check (m : Z) (r : ckd) : Z * Z :=
  let k := check2 255 255 ((k_c0 r mod 128) :: tl (count_of r)) in (fst k, Z.lxor (flag_of m r) (snd k)).
(** Two buffers of the same length that differ at most in the [n] bytes from [p]. *)
Definition only_changed (b b' : list Z) (p n : Z) : Prop :=
  length b' = length b /\ forall i, 0 <= i -> ~ p <= i < p + n -> nth_error b' (Z.to_nat i) = nth_error b (Z.to_nat i).
(** What an operation on a track leaves alone besides. *)
Definition same_place (s s' : dasd) : Prop :=
  image s' = image s /\ d_type s' = d_type s /\ d_head s' = d_head s /\ d_cyl s' = d_cyl s /\ d_tstart s' = d_tstart s.

(** *** Images *)

(** The place of the record behind the one at [p], by the lengths in its count field. *)
Definition next_rec (c : list Z) (p : nat) : option nat :=
  match nth_error c (p + 5), nth_error c (p + 6), nth_error c (p + 7) with
  | Some k, Some h, Some l => Some (p + 8 + Z.to_nat k + Z.to_nat (h * 256 + l))%nat
  | _, _, _ => None
  end.
(** Three records, and the start of a fourth one, lie inside a cylinder. *)
Definition four_records (c : list Z) : Prop :=
  exists p q r, next_rec c 5 = Some p /\ next_rec c p = Some q /\ next_rec c q = Some r /\ (r + 24 <= length c)%nat.
