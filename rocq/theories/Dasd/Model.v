(** Model of /repo/src/device/dasd.c: disk packs of type 2303, 2311, 2302 and 2314.
    The image file is a list of bytes, the cylinder buffer is a list of bytes, and every access to the
    buffer outside its bounds is [UB].  Not modelled: the log messages (some of which read the buffer
    as well), failing system calls, the file name, and the 50 tick delay of a seek (the call back
    [seek_callback] is an operation of its own here that may come at any time). *)
From Verif Require Export Base.Bits.
From Verif Require Export Xlat.Tables.

(** DK_POS_*, dasd.c:126-137. *)
Inductive dpos := PIndex | PHa | PGap1 | PCnt0 | PGap2 | PAm | PCnt1 | PKey | PGap3 | PData | PEnd | PUnk.

(** disk_type[], dasd.c:143-166, one function per column. *)
Inductive dtype := T2303 | T2311 | T2302 | T2314.
Definition ty_cyl (t : dtype) : Z := match t with T2303 => 80 | T2311 => 203 | T2302 => 250 | T2314 => 202 end.
Definition ty_heads (t : dtype) : Z := match t with T2303 => 10 | T2311 => 10 | T2302 => 46 | T2314 => 20 end.
Definition ty_bpt (t : dtype) : Z := match t with T2303 => 4984 | T2311 => 3717 | T2302 => 4984 | T2314 => 7294 end.
Definition ty_dev (t : dtype) : Z := match t with T2303 => 3 | T2311 => 17 | T2302 => 2 | T2314 => 20 end.
Definition ty_g1 (t : dtype) : Z := match t with T2303 => 72 | T2311 => 36 | T2302 => 72 | T2314 => 36 end.
Definition ty_g2 (t : dtype) : Z := match t with T2303 => 36 | T2311 => 36 | T2302 => 36 | T2314 => 18 end.
Definition ty_g4 (t : dtype) : Z := match t with T2303 => 36 | T2311 => 36 | T2302 => 36 | T2314 => 73 end.
Definition ty_sync (t : dtype) : Z := match t with T2314 => 5 | _ => 6 end.
Definition ty_rate (t : dtype) : Z := 13.
Definition all_types : list dtype := [T2303; T2311; T2302; T2314].
Definition is14 (t : dtype) : bool := ty_dev t =? 20.

(** struct _dasd_t, dasd.h:100-140, without the fields that are never used. *)
Record dasd := mkDasd {
  d_file : option (list Z)  (* fd: the image file, None when not open *);
  d_cbuf : list Z  (* cylinder buffer, [] is NULL *);
  d_label : list Z  (* vol_label, 9 bytes *);
  d_type : dtype  (* type *);
  d_head : Z  (* head *);
  d_status : Z  (* status *);
  d_diff : Z  (* diff *);
  d_dir : bool  (* dir *);
  d_attn : bool  (* attn *);
  d_flags : Z  (* flags *);
  d_ams : bool  (* am_search *);
  d_fpos : Z  (* fpos *);
  d_tstart : Z  (* tstart *);
  d_ncyl : Z  (* ncyl *);
  d_cyl : Z  (* cyl *);
  d_tpos : Z  (* tpos, uint16_t *);
  d_rpos : Z  (* rpos, uint16_t *);
  d_cpos : Z  (* cpos, uint16_t *);
  d_count : Z  (* count, uint16_t *);
  d_dlen : Z  (* dlen, uint16_t *);
  d_tsize : Z  (* tsize, uint32_t *);
  d_rcnt : Z  (* rcnt, uint8_t *);
  d_state : dpos  (* state *);
  d_dirty : bool  (* dirty *);
  d_klen : Z  (* klen, uint8_t *);
  d_ck0 : Z  (* ck_sum[0] *);
  d_ck1 : Z  (* ck_sum[1] *);
  d_step : Z  (* step *)
}.

(** Assignments to one field of the structure. *)
Definition set_file (s : dasd) (v : option (list Z)) : dasd :=
  mkDasd v (d_cbuf s) (d_label s) (d_type s) (d_head s) (d_status s) (d_diff s) (d_dir s) (d_attn s) (d_flags s) (d_ams s) (d_fpos s) (d_tstart s) (d_ncyl s) (d_cyl s) (d_tpos s) (d_rpos s) (d_cpos s) (d_count s) (d_dlen s) (d_tsize s) (d_rcnt s) (d_state s) (d_dirty s) (d_klen s) (d_ck0 s) (d_ck1 s) (d_step s).
Definition set_cbuf (s : dasd) (v : list Z) : dasd :=
  mkDasd (d_file s) v (d_label s) (d_type s) (d_head s) (d_status s) (d_diff s) (d_dir s) (d_attn s) (d_flags s) (d_ams s) (d_fpos s) (d_tstart s) (d_ncyl s) (d_cyl s) (d_tpos s) (d_rpos s) (d_cpos s) (d_count s) (d_dlen s) (d_tsize s) (d_rcnt s) (d_state s) (d_dirty s) (d_klen s) (d_ck0 s) (d_ck1 s) (d_step s).
Definition set_label (s : dasd) (v : list Z) : dasd :=
  mkDasd (d_file s) (d_cbuf s) v (d_type s) (d_head s) (d_status s) (d_diff s) (d_dir s) (d_attn s) (d_flags s) (d_ams s) (d_fpos s) (d_tstart s) (d_ncyl s) (d_cyl s) (d_tpos s) (d_rpos s) (d_cpos s) (d_count s) (d_dlen s) (d_tsize s) (d_rcnt s) (d_state s) (d_dirty s) (d_klen s) (d_ck0 s) (d_ck1 s) (d_step s).
Definition set_type (s : dasd) (v : dtype) : dasd :=
  mkDasd (d_file s) (d_cbuf s) (d_label s) v (d_head s) (d_status s) (d_diff s) (d_dir s) (d_attn s) (d_flags s) (d_ams s) (d_fpos s) (d_tstart s) (d_ncyl s) (d_cyl s) (d_tpos s) (d_rpos s) (d_cpos s) (d_count s) (d_dlen s) (d_tsize s) (d_rcnt s) (d_state s) (d_dirty s) (d_klen s) (d_ck0 s) (d_ck1 s) (d_step s).
Definition set_head (s : dasd) (v : Z) : dasd :=
  mkDasd (d_file s) (d_cbuf s) (d_label s) (d_type s) v (d_status s) (d_diff s) (d_dir s) (d_attn s) (d_flags s) (d_ams s) (d_fpos s) (d_tstart s) (d_ncyl s) (d_cyl s) (d_tpos s) (d_rpos s) (d_cpos s) (d_count s) (d_dlen s) (d_tsize s) (d_rcnt s) (d_state s) (d_dirty s) (d_klen s) (d_ck0 s) (d_ck1 s) (d_step s).
Definition set_status (s : dasd) (v : Z) : dasd :=
  mkDasd (d_file s) (d_cbuf s) (d_label s) (d_type s) (d_head s) v (d_diff s) (d_dir s) (d_attn s) (d_flags s) (d_ams s) (d_fpos s) (d_tstart s) (d_ncyl s) (d_cyl s) (d_tpos s) (d_rpos s) (d_cpos s) (d_count s) (d_dlen s) (d_tsize s) (d_rcnt s) (d_state s) (d_dirty s) (d_klen s) (d_ck0 s) (d_ck1 s) (d_step s).
Definition set_diff (s : dasd) (v : Z) : dasd :=
  mkDasd (d_file s) (d_cbuf s) (d_label s) (d_type s) (d_head s) (d_status s) v (d_dir s) (d_attn s) (d_flags s) (d_ams s) (d_fpos s) (d_tstart s) (d_ncyl s) (d_cyl s) (d_tpos s) (d_rpos s) (d_cpos s) (d_count s) (d_dlen s) (d_tsize s) (d_rcnt s) (d_state s) (d_dirty s) (d_klen s) (d_ck0 s) (d_ck1 s) (d_step s).
Definition set_dir (s : dasd) (v : bool) : dasd :=
  mkDasd (d_file s) (d_cbuf s) (d_label s) (d_type s) (d_head s) (d_status s) (d_diff s) v (d_attn s) (d_flags s) (d_ams s) (d_fpos s) (d_tstart s) (d_ncyl s) (d_cyl s) (d_tpos s) (d_rpos s) (d_cpos s) (d_count s) (d_dlen s) (d_tsize s) (d_rcnt s) (d_state s) (d_dirty s) (d_klen s) (d_ck0 s) (d_ck1 s) (d_step s).
Definition set_attn (s : dasd) (v : bool) : dasd :=
  mkDasd (d_file s) (d_cbuf s) (d_label s) (d_type s) (d_head s) (d_status s) (d_diff s) (d_dir s) v (d_flags s) (d_ams s) (d_fpos s) (d_tstart s) (d_ncyl s) (d_cyl s) (d_tpos s) (d_rpos s) (d_cpos s) (d_count s) (d_dlen s) (d_tsize s) (d_rcnt s) (d_state s) (d_dirty s) (d_klen s) (d_ck0 s) (d_ck1 s) (d_step s).
Definition set_flags (s : dasd) (v : Z) : dasd :=
  mkDasd (d_file s) (d_cbuf s) (d_label s) (d_type s) (d_head s) (d_status s) (d_diff s) (d_dir s) (d_attn s) v (d_ams s) (d_fpos s) (d_tstart s) (d_ncyl s) (d_cyl s) (d_tpos s) (d_rpos s) (d_cpos s) (d_count s) (d_dlen s) (d_tsize s) (d_rcnt s) (d_state s) (d_dirty s) (d_klen s) (d_ck0 s) (d_ck1 s) (d_step s).
Definition set_ams (s : dasd) (v : bool) : dasd :=
  mkDasd (d_file s) (d_cbuf s) (d_label s) (d_type s) (d_head s) (d_status s) (d_diff s) (d_dir s) (d_attn s) (d_flags s) v (d_fpos s) (d_tstart s) (d_ncyl s) (d_cyl s) (d_tpos s) (d_rpos s) (d_cpos s) (d_count s) (d_dlen s) (d_tsize s) (d_rcnt s) (d_state s) (d_dirty s) (d_klen s) (d_ck0 s) (d_ck1 s) (d_step s).
Definition set_fpos (s : dasd) (v : Z) : dasd :=
  mkDasd (d_file s) (d_cbuf s) (d_label s) (d_type s) (d_head s) (d_status s) (d_diff s) (d_dir s) (d_attn s) (d_flags s) (d_ams s) v (d_tstart s) (d_ncyl s) (d_cyl s) (d_tpos s) (d_rpos s) (d_cpos s) (d_count s) (d_dlen s) (d_tsize s) (d_rcnt s) (d_state s) (d_dirty s) (d_klen s) (d_ck0 s) (d_ck1 s) (d_step s).
Definition set_tstart (s : dasd) (v : Z) : dasd :=
  mkDasd (d_file s) (d_cbuf s) (d_label s) (d_type s) (d_head s) (d_status s) (d_diff s) (d_dir s) (d_attn s) (d_flags s) (d_ams s) (d_fpos s) v (d_ncyl s) (d_cyl s) (d_tpos s) (d_rpos s) (d_cpos s) (d_count s) (d_dlen s) (d_tsize s) (d_rcnt s) (d_state s) (d_dirty s) (d_klen s) (d_ck0 s) (d_ck1 s) (d_step s).
Definition set_ncyl (s : dasd) (v : Z) : dasd :=
  mkDasd (d_file s) (d_cbuf s) (d_label s) (d_type s) (d_head s) (d_status s) (d_diff s) (d_dir s) (d_attn s) (d_flags s) (d_ams s) (d_fpos s) (d_tstart s) v (d_cyl s) (d_tpos s) (d_rpos s) (d_cpos s) (d_count s) (d_dlen s) (d_tsize s) (d_rcnt s) (d_state s) (d_dirty s) (d_klen s) (d_ck0 s) (d_ck1 s) (d_step s).
Definition set_cyl (s : dasd) (v : Z) : dasd :=
  mkDasd (d_file s) (d_cbuf s) (d_label s) (d_type s) (d_head s) (d_status s) (d_diff s) (d_dir s) (d_attn s) (d_flags s) (d_ams s) (d_fpos s) (d_tstart s) (d_ncyl s) v (d_tpos s) (d_rpos s) (d_cpos s) (d_count s) (d_dlen s) (d_tsize s) (d_rcnt s) (d_state s) (d_dirty s) (d_klen s) (d_ck0 s) (d_ck1 s) (d_step s).
Definition set_tpos (s : dasd) (v : Z) : dasd :=
  mkDasd (d_file s) (d_cbuf s) (d_label s) (d_type s) (d_head s) (d_status s) (d_diff s) (d_dir s) (d_attn s) (d_flags s) (d_ams s) (d_fpos s) (d_tstart s) (d_ncyl s) (d_cyl s) v (d_rpos s) (d_cpos s) (d_count s) (d_dlen s) (d_tsize s) (d_rcnt s) (d_state s) (d_dirty s) (d_klen s) (d_ck0 s) (d_ck1 s) (d_step s).
Definition set_rpos (s : dasd) (v : Z) : dasd :=
  mkDasd (d_file s) (d_cbuf s) (d_label s) (d_type s) (d_head s) (d_status s) (d_diff s) (d_dir s) (d_attn s) (d_flags s) (d_ams s) (d_fpos s) (d_tstart s) (d_ncyl s) (d_cyl s) (d_tpos s) v (d_cpos s) (d_count s) (d_dlen s) (d_tsize s) (d_rcnt s) (d_state s) (d_dirty s) (d_klen s) (d_ck0 s) (d_ck1 s) (d_step s).
Definition set_cpos (s : dasd) (v : Z) : dasd :=
  mkDasd (d_file s) (d_cbuf s) (d_label s) (d_type s) (d_head s) (d_status s) (d_diff s) (d_dir s) (d_attn s) (d_flags s) (d_ams s) (d_fpos s) (d_tstart s) (d_ncyl s) (d_cyl s) (d_tpos s) (d_rpos s) v (d_count s) (d_dlen s) (d_tsize s) (d_rcnt s) (d_state s) (d_dirty s) (d_klen s) (d_ck0 s) (d_ck1 s) (d_step s).
Definition set_count (s : dasd) (v : Z) : dasd :=
  mkDasd (d_file s) (d_cbuf s) (d_label s) (d_type s) (d_head s) (d_status s) (d_diff s) (d_dir s) (d_attn s) (d_flags s) (d_ams s) (d_fpos s) (d_tstart s) (d_ncyl s) (d_cyl s) (d_tpos s) (d_rpos s) (d_cpos s) v (d_dlen s) (d_tsize s) (d_rcnt s) (d_state s) (d_dirty s) (d_klen s) (d_ck0 s) (d_ck1 s) (d_step s).
Definition set_dlen (s : dasd) (v : Z) : dasd :=
  mkDasd (d_file s) (d_cbuf s) (d_label s) (d_type s) (d_head s) (d_status s) (d_diff s) (d_dir s) (d_attn s) (d_flags s) (d_ams s) (d_fpos s) (d_tstart s) (d_ncyl s) (d_cyl s) (d_tpos s) (d_rpos s) (d_cpos s) (d_count s) v (d_tsize s) (d_rcnt s) (d_state s) (d_dirty s) (d_klen s) (d_ck0 s) (d_ck1 s) (d_step s).
Definition set_tsize (s : dasd) (v : Z) : dasd :=
  mkDasd (d_file s) (d_cbuf s) (d_label s) (d_type s) (d_head s) (d_status s) (d_diff s) (d_dir s) (d_attn s) (d_flags s) (d_ams s) (d_fpos s) (d_tstart s) (d_ncyl s) (d_cyl s) (d_tpos s) (d_rpos s) (d_cpos s) (d_count s) (d_dlen s) v (d_rcnt s) (d_state s) (d_dirty s) (d_klen s) (d_ck0 s) (d_ck1 s) (d_step s).
Definition set_rcnt (s : dasd) (v : Z) : dasd :=
  mkDasd (d_file s) (d_cbuf s) (d_label s) (d_type s) (d_head s) (d_status s) (d_diff s) (d_dir s) (d_attn s) (d_flags s) (d_ams s) (d_fpos s) (d_tstart s) (d_ncyl s) (d_cyl s) (d_tpos s) (d_rpos s) (d_cpos s) (d_count s) (d_dlen s) (d_tsize s) v (d_state s) (d_dirty s) (d_klen s) (d_ck0 s) (d_ck1 s) (d_step s).
Definition set_state (s : dasd) (v : dpos) : dasd :=
  mkDasd (d_file s) (d_cbuf s) (d_label s) (d_type s) (d_head s) (d_status s) (d_diff s) (d_dir s) (d_attn s) (d_flags s) (d_ams s) (d_fpos s) (d_tstart s) (d_ncyl s) (d_cyl s) (d_tpos s) (d_rpos s) (d_cpos s) (d_count s) (d_dlen s) (d_tsize s) (d_rcnt s) v (d_dirty s) (d_klen s) (d_ck0 s) (d_ck1 s) (d_step s).
Definition set_dirty (s : dasd) (v : bool) : dasd :=
  mkDasd (d_file s) (d_cbuf s) (d_label s) (d_type s) (d_head s) (d_status s) (d_diff s) (d_dir s) (d_attn s) (d_flags s) (d_ams s) (d_fpos s) (d_tstart s) (d_ncyl s) (d_cyl s) (d_tpos s) (d_rpos s) (d_cpos s) (d_count s) (d_dlen s) (d_tsize s) (d_rcnt s) (d_state s) v (d_klen s) (d_ck0 s) (d_ck1 s) (d_step s).
Definition set_klen (s : dasd) (v : Z) : dasd :=
  mkDasd (d_file s) (d_cbuf s) (d_label s) (d_type s) (d_head s) (d_status s) (d_diff s) (d_dir s) (d_attn s) (d_flags s) (d_ams s) (d_fpos s) (d_tstart s) (d_ncyl s) (d_cyl s) (d_tpos s) (d_rpos s) (d_cpos s) (d_count s) (d_dlen s) (d_tsize s) (d_rcnt s) (d_state s) (d_dirty s) v (d_ck0 s) (d_ck1 s) (d_step s).
Definition set_ck0 (s : dasd) (v : Z) : dasd :=
  mkDasd (d_file s) (d_cbuf s) (d_label s) (d_type s) (d_head s) (d_status s) (d_diff s) (d_dir s) (d_attn s) (d_flags s) (d_ams s) (d_fpos s) (d_tstart s) (d_ncyl s) (d_cyl s) (d_tpos s) (d_rpos s) (d_cpos s) (d_count s) (d_dlen s) (d_tsize s) (d_rcnt s) (d_state s) (d_dirty s) (d_klen s) v (d_ck1 s) (d_step s).
Definition set_ck1 (s : dasd) (v : Z) : dasd :=
  mkDasd (d_file s) (d_cbuf s) (d_label s) (d_type s) (d_head s) (d_status s) (d_diff s) (d_dir s) (d_attn s) (d_flags s) (d_ams s) (d_fpos s) (d_tstart s) (d_ncyl s) (d_cyl s) (d_tpos s) (d_rpos s) (d_cpos s) (d_count s) (d_dlen s) (d_tsize s) (d_rcnt s) (d_state s) (d_dirty s) (d_klen s) (d_ck0 s) v (d_step s).
Definition set_step (s : dasd) (v : Z) : dasd :=
  mkDasd (d_file s) (d_cbuf s) (d_label s) (d_type s) (d_head s) (d_status s) (d_diff s) (d_dir s) (d_attn s) (d_flags s) (d_ams s) (d_fpos s) (d_tstart s) (d_ncyl s) (d_cyl s) (d_tpos s) (d_rpos s) (d_cpos s) (d_count s) (d_dlen s) (d_tsize s) (d_rcnt s) (d_state s) (d_dirty s) (d_klen s) (d_ck0 s) (d_ck1 s) v.

Definition u8 (x : Z) : Z := x mod 256.
Definition u16 (x : Z) : Z := x mod 65536.
Definition u32 (x : Z) : Z := x mod 4294967296.
Definition bit (x m : Z) : bool := negb (Z.land x m =? 0).

(** *** Buffer and file *)

(** cbuf[i] *)
Definition getb (s : dasd) (i : Z) : res Z := tab (d_cbuf s) i.
(** cbuf[i] = v *)
Definition putb (s : dasd) (i v : Z) : res dasd :=
  if (0 <=? i) && (i <? Z.of_nat (length (d_cbuf s)))
  then Ok (set_cbuf s (upd (d_cbuf s) (Z.to_nat i) v)) else UB.
(** rec[i] with rec = &cbuf[rpos + tstart] *)
Definition rec_at (s : dasd) (i : Z) : res Z := getb s (d_rpos s + d_tstart s + i).
(** rec[i] = v *)
Definition rec_put (s : dasd) (i v : Z) : res dasd := putb s (d_rpos s + d_tstart s + i) v.

(** Replace the elements from [p] on by [b]; a gap behind the end is filled with zero bytes. *)
Definition over (f : list Z) (p : nat) (b : list Z) : list Z :=
  firstn p f ++ repeat 0 (p - length f) ++ b ++ skipn (p + length b) f.

(** lseek(fd, p); write(fd, cbuf, n) *)
Definition file_write (s : dasd) (p n : Z) : res dasd :=
  match d_file s with
  | None => Ok s
  | Some f =>
    if n <=? Z.of_nat (length (d_cbuf s))
    then Ok (set_file s (Some (over f (Z.to_nat p) (firstn (Z.to_nat n) (d_cbuf s)))))
    else UB
  end.
(** lseek(fd, p); read(fd, cbuf, n): at the end of the file fewer bytes arrive and the rest of the
    buffer stays as it was. *)
Definition file_read (s : dasd) (p n : Z) : res dasd :=
  match d_file s with
  | None => Ok s
  | Some f =>
    let got := firstn (Z.to_nat n) (skipn (Z.to_nat p) f) in
    if Z.of_nat (length got) <=? Z.of_nat (length (d_cbuf s))
    then Ok (set_cbuf s (got ++ skipn (length got) (d_cbuf s)))
    else UB
  end.

(** dasd_settype, dasd.c:168-181; a name that is not in the table sets the type to -1, for which the
    other functions are not defined.  The table index is the constructor here. *)
Definition dasd_settype (s : dasd) (t : dtype) : dasd := set_type s t.

(** dasd_setvolid, dasd.c:183-197.  [volid] is the C string without its terminating zero. *)
Definition dasd_setvolid (s : dasd) (volid : list Z) : dasd :=
  let v := firstn 8 volid in
  set_label s (v ++ repeat 32 (8 - length v) ++ [0]).

(** *** The arm *)

(** seek_callback, dasd.c:257-292. *)
Definition seek_callback (s : dasd) : res dasd :=
  let s := set_attn s true in
  let s := set_diff s 0 in
  let s := set_flags s (Z.land (d_flags s) 254) in
  let s := set_status s (Z.lor (d_status s) 32) in
  let* s :=
    if d_cyl s =? d_ncyl s then Ok s
    else
      let tsize := u32 (d_tsize s * ty_heads (d_type s)) in
      let pos := u32 (tsize * d_ncyl s) + 512 in
      let* s := if d_dirty s
                then (let* s := file_write s (d_fpos s) tsize in Ok (set_dirty s false))
                else Ok s in
      let s := set_fpos s (u32 pos) in
      let* s := file_read s (d_fpos s) tsize in
      Ok (set_cyl s (d_ncyl s)) in
  Ok (set_tstart s (u32 (d_tsize s * d_head s))).

(** *** Position on the track *)

(** ck_sum[i & 1] ^= v *)
Definition ck_xor (s : dasd) (i v : Z) : dasd :=
  if Z.odd i then set_ck1 s (Z.lxor (d_ck1 s) v) else set_ck0 s (Z.lxor (d_ck0 s) v).
(** ck_sum[0] = ck_sum[1] = 0xff *)
Definition ck_init (s : dasd) : dasd := set_ck1 (set_ck0 s 255) 255.
(** (rec[0] & rec[1] & rec[2] & rec[3]) == 0xff *)
Definition rec_end (s : dasd) : res bool :=
  let* a := rec_at s 0 in
  let* b := rec_at s 1 in
  let* c := rec_at s 2 in
  let* d := rec_at s 3 in
  Ok (Z.land (Z.land (Z.land a b) c) d =? 255).
(** klen = rec[5]; dlen = (rec[6] << 8) | rec[7] *)
Definition load_lens (s : dasd) : res dasd :=
  let* k := rec_at s 5 in
  let* h := rec_at s 6 in
  let* l := rec_at s 7 in
  Ok (set_dlen (set_klen s k) (h * 256 + l)).

(** The local variables of dasd_update, dasd.c:463-474. *)
Record upd_st := mkUpd { u_state : dpos; u_tpos : Z; u_rpos : Z; u_count : Z }.

(** ck_sum[0] = ck_sum[1] = 0xff, and on a 2314 ck_sum[0] ^= sync *)
Definition upd_ck (s : dasd) : dasd :=
  let s := ck_init s in
  if is14 (d_type s) then set_ck0 s (Z.lxor (d_ck0 s) (ty_sync (d_type s))) else s.
Definition upd_rec (s : dasd) (u : upd_st) (i : Z) : res Z := getb s (u_rpos u + d_tstart s + i).
Definition upd_end (s : dasd) (u : upd_st) : res bool :=
  let* a := upd_rec s u 0 in
  let* b := upd_rec s u 1 in
  let* c := upd_rec s u 2 in
  let* d := upd_rec s u 3 in
  Ok (Z.land (Z.land (Z.land a b) c) d =? 255).
Definition upd_lens (s : dasd) (u : upd_st) : res dasd :=
  let* k := upd_rec s u 5 in
  let* h := upd_rec s u 6 in
  let* l := upd_rec s u 7 in
  Ok (set_dlen (set_klen s k) (h * 256 + l)).

(** One turn of the loop of dasd_update, dasd.c:495-730, without the closing count++. *)
Definition update_turn (s : dasd) (u : upd_st) : res (dasd * upd_st) :=
  let ty := d_type s in
  let c := u_count u in
  match u_state u with
  | PIndex =>
      if ty_g4 ty <? c
      then Ok (upd_ck (set_tstart s (u32 (d_tsize s * d_head s))), mkUpd PHa 0 0 (-1))
      else Ok (s, u)
  | PHa =>
      if (0 <=? c) && (c <=? 4) then
        let* b := upd_rec s u c in
        Ok (ck_xor s c b, mkUpd PHa (u_tpos u + 1) (u_rpos u) c)
      else if c =? 6 then
        if is14 ty then Ok (s, mkUpd PHa 5 5 c) else Ok (s, mkUpd PGap1 5 5 (-1))
      else if c =? 8 then Ok (s, mkUpd PGap1 (u_tpos u) (u_rpos u) (-1))
      else Ok (s, u)
  | PGap1 =>
      if c <? ty_g1 ty then Ok (s, u)
      else Ok (upd_ck s, mkUpd PCnt0 (u_tpos u) (u_rpos u) (-1))
  | PCnt0 =>
      if c =? 0 then
        let* e := upd_end s u in
        if e then Ok (s, mkUpd PEnd (u_tpos u) (u_rpos u) c)
        else let* s := upd_lens s u in Ok (s, u)
      else if (1 <=? c) && (c <=? 8) then
        let* b := upd_rec s u (c - 1) in
        Ok (ck_xor s (c - 1) b, mkUpd PCnt0 (u_tpos u + 1) (u_rpos u) c)
      else if ((c =? 10) && negb (is14 ty)) || (c =? 12) then
        Ok (s, mkUpd (if d_klen s =? 0 then PGap3 else PGap2) (u_tpos u) (u_rpos u) (-1))
      else Ok (s, u)
  | PAm =>
      if c <? ty_g2 ty then Ok (s, u)
      else
        let* e := upd_end s u in
        Ok (s, mkUpd (if e then PEnd else PCnt1) (u_tpos u) (u_rpos u) (-1))
  | PCnt1 =>
      if c =? 0 then
        let* e := upd_end s u in
        if e then Ok (s, mkUpd PEnd (u_tpos u) (u_rpos u) 0)
        else let* s := upd_lens s u in Ok (s, u)
      else if (1 <=? c) && (c <=? 8) then
        let* b := upd_rec s u (c - 1) in
        Ok (ck_xor s (c - 1) b, mkUpd PCnt1 (u_tpos u + 1) (u_rpos u) c)
      else if c =? 10 then
        Ok (s, mkUpd (if d_klen s =? 0 then PGap3 else PGap2) (u_tpos u) (u_rpos u) (-1))
      else Ok (s, u)
  | PGap2 =>
      if c <? ty_g2 ty then Ok (s, u)
      else Ok (upd_ck s, mkUpd PKey (u_tpos u) (u_rpos u) (-1))
  | PKey =>
      let* (s, u) :=
        if c <? d_klen s then
          let* b := getb s (u_tpos u + d_tstart s + c) in
          Ok (ck_xor s c b, mkUpd PKey (u_tpos u + 1) (u_rpos u) c)
        else Ok (s, u) in
      if c =? d_klen s + 2 then Ok (upd_ck s, mkUpd PGap3 (u_tpos u) (u_rpos u) (-1))
      else Ok (s, u)
  | PGap3 =>
      if c <? ty_g2 ty then Ok (s, u)
      else Ok (s, mkUpd PData (u_tpos u) (u_rpos u) (-1))
  | PData =>
      let* (s, u) :=
        if c <? d_dlen s then
          let* b := getb s (u_tpos u + d_tstart s + c) in
          Ok (ck_xor s c b, mkUpd PData (u_tpos u + 1) (u_rpos u) c)
        else Ok (s, u) in
      if c =? d_dlen s + 2 then Ok (upd_ck s, mkUpd PAm (u_tpos u) (u_tpos u) (-1))
      else Ok (s, u)
  | PEnd => Ok (s, u)
  | PUnk => Ok (s, u)
  end.

Fixpoint update_loop (n : nat) (s : dasd) (u : upd_st) : res (dasd * upd_st) :=
  match n with
  | O => Ok (s, u)
  | S m =>
    let* (s, u) := update_turn s u in
    update_loop m s (mkUpd (u_state u) (u_tpos u) (u_rpos u) (u_count u + 1))
  end.

(** dasd_update, dasd.c:462-737. *)
Definition dasd_update (s : dasd) : res dasd :=
  let* (s, u) := update_loop (Z.to_nat (d_cpos s)) s (mkUpd PIndex 0 0 0) in
  Ok (set_tpos (set_rpos (set_state (set_count s (u16 (u_count u))) (u_state u)) (u16 (u_rpos u))) (u16 (u_tpos u))).

(** dasd_settags, dasd.c:294-403.  The second component counts the seeks that were started
    (add_event). *)
Definition head_advance (s : dasd) : dasd :=
  let s := set_head s (d_head s + 1) in
  if ty_heads (d_type s) <=? d_head s then set_head (set_flags s (Z.lor (d_flags s) 4)) 0 else s.
Definition new_tstart (s : dasd) : dasd := set_tstart s (u32 (d_tsize s * d_head s)).
Definition is_unk (s : dasd) : bool := match d_state s with PUnk => true | _ => false end.

Definition tags_control (s : dasd) (ft fc : Z) : res (dasd * nat) :=
  let* s := if bit fc 128 && is_unk s then dasd_update s else Ok s in
  let* s :=
    if bit fc 64 then
      let s := set_attn s false in
      let* s := if bit fc 4 && is_unk s then dasd_update s else Ok s in
      Ok (if is14 (d_type s)
          then (if bit (d_flags s) 64 then s else set_ams s true)
          else set_ams s (bit fc 4 && bit fc 1))
    else Ok s in
  let '(s, n) :=
    if bit fc 32 && negb (d_diff s =? 0)
    then (set_status (set_flags s (Z.lor (d_flags s) 1)) (Z.land (d_status s) (-33)), 1%nat)
    else (s, 0%nat) in
  let s := if bit fc 16 then set_flags s (Z.land (d_flags s) 249) else s in
  let s := if bit fc 4 then set_flags s (Z.lor (d_flags s) 16) else s in
  let '(s, n) :=
    if bit fc 2 then
      let s := set_head (set_diff (set_ncyl s 0) 0) 0 in
      let s := set_status (set_flags s (Z.lor (d_flags s) 1)) (Z.land (d_status s) (-33)) in
      (new_tstart s, S n)
    else (s, n) in
  let s :=
    if negb (is14 (d_type s)) then (if bit ft 8 then new_tstart (head_advance s) else s)
    else if bit fc 1 then
      (if bit (d_flags s) 8 then set_flags s (Z.land (d_flags s) 247)
       else let s := head_advance s in new_tstart (set_flags s (Z.lor (d_flags s) 8)))
    else s in
  Ok (set_flags s (Z.lor (Z.land (d_flags s) 63) (Z.land fc 192)), n).

Definition tags_head (s : dasd) (fc : Z) : dasd :=
  let s :=
    if is14 (d_type s) then set_head (set_dir s (bit fc 128)) (Z.land fc 15)
    else if bit (d_flags s) 2 then set_dir s (bit fc 128)
    else set_flags (set_head s (Z.land fc 15)) (Z.lor (d_flags s) 2) in
  new_tstart s.

Definition dasd_settags (s : dasd) (ft fc : Z) : res (dasd * nat) :=
  if negb (bit ft 1) then Ok (s, 0%nat)
  else
    let* (s, n) := if bit ft 128 then tags_control s ft fc else Ok (s, 0%nat) in
    let s := if bit ft 64 then set_ncyl s fc else s in
    let s := if bit ft 32 then tags_head s fc else s in
    let s := if bit ft 16 then set_diff s fc else s in
    Ok (s, n).

(** dasd_gettags, dasd.c:405-435. *)
Definition dasd_gettags (s : dasd) : Z :=
  match d_file s with
  | None => 0
  | Some _ =>
    let res := 64 in
    let res := if bit (d_flags s) 4 then Z.lor res 4 else res in
    if is14 (d_type s) then
      let res := if bit (d_flags s) 128 then Z.lor res 16 else res in
      if bit (d_status s) 32 then res else Z.lor res 128
    else if bit (d_status s) 32 then Z.lor res 128 else res
  end.
(** dasd_cur_cyl, dasd_check_attn, dasd_check_seek, dasd.c:437-453. *)
Definition dasd_cur_cyl (s : dasd) : Z := u8 (d_cyl s).
Definition dasd_check_attn (s : dasd) : bool := d_attn s.
Definition dasd_check_seek (s : dasd) : bool := bit (d_flags s) 1.

(** dasd_step, dasd.c:745-767. *)
Definition dasd_step (s : dasd) : dasd * Z :=
  if d_step s <? ty_rate (d_type s) then (set_step s (d_step s + 1), 0)
  else
    let s := set_step (set_state s PUnk) 0 in
    if ty_bpt (d_type s) + 1 <=? d_cpos s
    then (set_cpos (set_state s PIndex) 0, 1)
    else (set_cpos s (u16 (d_cpos s + 1)), 0).

(** *** dasd_read_byte, dasd.c:775-1209 *)

(** What one case of the switch leaves behind: the state, *data, *am, *ix, and whether the case ended
    with break (true) or with return 0 (false). *)
Record rd := mkRd { r_s : dasd; r_data : Z; r_am : Z; r_ix : Z; r_go : bool }.

(** case DK_POS_INDEX, dasd.c:837-859. *)
Definition read_index (s : dasd) (count data am ix : Z) : res rd :=
  let ty := d_type s in
  if count =? ty_g4 ty then
    let s := new_tstart s in
    let s := set_count (set_rpos (set_tpos s 0) 0) 0 in
    let s := set_ams (ck_init (set_state s PHa)) false in
    Ok (mkRd s (ty_sync ty) (if is14 ty then 1 else am) ix true)
  else Ok (mkRd s data am (if count <? 3 then 1 else ix) false).

(** case DK_POS_HA, dasd.c:861-895. *)
Definition read_ha (s : dasd) (count data am ix : Z) : res rd :=
  let ty := d_type s in
  if count <=? 4 then
    let* b := rec_at s count in
    Ok (mkRd (set_tpos (ck_xor s (d_count s) b) (u16 (d_tpos s + 1))) b am ix true)
  else if count =? 5 then Ok (mkRd s (d_ck0 s) am ix true)
  else if count =? 6 then
    let s' := set_rpos (set_tpos s 5) 5 in
    Ok (mkRd (if is14 ty then s' else set_count (set_state s' PGap1) 0) (d_ck1 s) am ix true)
  else if count =? 7 then Ok (mkRd s 1 am ix true)
  else if count =? 8 then Ok (mkRd (set_count (set_state s PGap1) 0) 255 am ix true)
  else Ok (mkRd s data am ix true).

(** case DK_POS_GAP1, dasd.c:897-920. *)
Definition read_gap1 (s : dasd) (count data am ix : Z) : res rd :=
  let ty := d_type s in
  if count =? ty_g1 ty then
    let s := ck_init s in
    let* e := rec_end s in
    if e then Ok (mkRd (set_state s PEnd) data am ix false)
    else
      let s := if is14 ty then set_ams s false else s in
      let s := set_state (set_count s 0) PCnt0 in
      Ok (mkRd s (if is14 ty then 3 else ty_sync ty) (if is14 ty then 1 else am) ix (negb (d_ams s)))
  else Ok (mkRd s data am ix false).

(** The gap a count field is followed by: a record without key has only the gap before the data. *)
Definition after_count (s : dasd) : dasd :=
  set_count (set_state s (if d_klen s =? 0 then PGap3 else PGap2)) 0.

(** case DK_POS_CNT0, dasd.c:922-977. *)
Definition read_cnt0 (s : dasd) (count data am ix : Z) : res rd :=
  let ty := d_type s in
  let* (s, data) :=
    if count =? 0 then
      let s := set_rcnt s 0 in
      let* e := rec_end s in
      let* s := if e then Ok (set_state s PEnd) else load_lens s in
      Ok (s, 0)
    else if count <=? 8 then
      let* b := rec_at s (count - 1) in
      Ok (set_tpos (ck_xor s (count - 1) b) (u16 (d_tpos s + 1)), b)
    else if count =? 9 then Ok (s, d_ck0 s)
    else if count =? 10 then Ok (if is14 ty then s else after_count s, d_ck1 s)
    else if count =? 11 then Ok (s, 1)
    else if count =? 12 then Ok (after_count s, 255)
    else Ok (s, data) in
  Ok (mkRd s data am ix (negb (d_ams s))).

(** case DK_POS_AM, dasd.c:980-1008. *)
Definition read_am (s : dasd) (count data am ix : Z) : res rd :=
  let ty := d_type s in
  if count =? ty_g2 ty then
    let s := ck_init s in
    let* e := rec_end s in
    if e then Ok (mkRd (set_count (set_state s PEnd) 0) (ty_sync ty) am ix false)
    else Ok (mkRd (set_state (set_count s 0) PCnt1) (if is14 ty then 6 else ty_sync ty)
                  (if is14 ty then 1 else am) ix true)
  else if ty_g2 ty - 2 <? count then Ok (mkRd (set_ams s false) 255 1 ix false)
  else Ok (mkRd s data am ix false).

(** case DK_POS_CNT1, dasd.c:1010-1081. *)
Definition read_cnt1 (s : dasd) (count data am ix : Z) : res rd :=
  let ty := d_type s in
  let* (s, data) :=
    if count =? 0 then
      let s := set_rcnt s (u8 (d_rcnt s + 1)) in
      let* e := rec_end s in
      let* s := if e then Ok (set_count (set_state s PEnd) 0) else load_lens s in
      let* b := rec_at s 0 in
      let d := (if bit b 128 then 64 else 0) + (if Z.odd (d_rcnt s) then 128 else 0) in
      Ok (set_ck1 s (Z.lxor (d_ck1 s) d), d)
    else if count =? 1 then
      let* b := rec_at s 0 in
      let d := Z.land b 127 in
      Ok (set_tpos (set_ck0 s (Z.lxor (d_ck0 s) d)) (u16 (d_tpos s + 1)), d)
    else if count <=? 8 then
      let* b := rec_at s (count - 1) in
      Ok (set_tpos (ck_xor s (count - 1) b) (u16 (d_tpos s + 1)), b)
    else if count =? 9 then Ok (s, d_ck0 s)
    else if count =? 10 then Ok (if is14 ty then s else after_count s, d_ck1 s)
    else if count =? 11 then Ok (s, 1)
    else if count =? 12 then Ok (after_count s, 255)
    else Ok (s, data) in
  Ok (mkRd s data am ix (negb (d_ams s))).

(** cases DK_POS_GAP2 (dasd.c:1083-1101) and DK_POS_GAP3 (1135-1153): the sync byte [v] of a 2314 and
    the field that follows are all that differs. *)
Definition read_gap (next : dpos) (v : Z) (s : dasd) (count data am ix : Z) : res rd :=
  let ty := d_type s in
  if count =? ty_g2 ty then
    let s := set_state (set_count (ck_init s) 0) next in
    let s := if is14 ty then set_ams s false else s in
    Ok (mkRd s (if is14 ty then v else ty_sync ty) (if is14 ty then 1 else am) ix (negb (d_ams s)))
  else Ok (mkRd s data am ix false).

(** cases DK_POS_KEY (dasd.c:1103-1133) and DK_POS_DATA (1156-1187): [len] is klen or dlen, [next] the
    gap that follows; after the data the record position is moved on. *)
Definition read_field (len : Z) (next : dpos) (s : dasd) (count data am ix : Z) : res rd :=
  let ty := d_type s in
  let fin s := set_count (set_state s next) 0 in
  let* (s, data) :=
    if count <? len then
      let* b := getb s (d_tpos s + d_tstart s) in
      Ok (set_tpos (ck_xor s count b) (u16 (d_tpos s + 1)), b)
    else if count =? len then Ok (s, d_ck0 s)
    else if count =? len + 1 then
      let d := d_ck1 s in
      let s := match next with PAm => set_rpos s (d_tpos s) | _ => s end in
      Ok (if is14 ty then s else fin s, d)
    else if count =? len + 2 then Ok (s, 1)
    else if count =? len + 3 then Ok (fin s, 255)
    else Ok (s, data) in
  Ok (mkRd s data am ix (negb (d_ams s))).

(** Index found at the end of a case: cpos = 0, state = INDEX, *ix = 1. *)
Definition read_wrap (r : rd) : rd :=
  let s := r_s r in
  if ty_bpt (d_type s) + 1 <=? d_cpos s
  then mkRd (set_state (set_cpos s 0) PIndex) (r_data r) (r_am r) 1 (r_go r)
  else r.

(** case DK_POS_END, dasd.c:1189-1199. *)
Definition read_end (s : dasd) (data am ix : Z) : rd :=
  read_wrap (mkRd (set_dlen (set_klen (set_count s 0) 0) 0) data am ix false).

(** The result: 1 if a byte was read, and the values of *data, *am and *ix. *)
Record rout := mkRout { o_ret : Z; o_data : Z; o_am : Z; o_ix : Z }.

Definition dasd_read_byte (s : dasd) (data am ix : Z) : res (dasd * rout) :=
  let ty := d_type s in
  if d_step s <? ty_rate ty then Ok (set_step s (d_step s + 1), mkRout 0 data am ix)
  else
    let s := set_step s 0 in
    let am := 0 in
    let '(s, ix) :=
      if ty_bpt ty + 1 <=? d_cpos s
      then (set_count (set_tpos (set_cpos (set_state (new_tstart s) PIndex) 65535) 0) 0, 1)
      else (s, ix) in
    let count := d_count s in
    let s := set_dirty (set_count (set_cpos s (u16 (d_cpos s + 1))) (u16 (d_count s + 1))) true in
    let* r :=
      match d_state s with
      | PIndex => read_index s count data am ix
      | PHa => read_ha s count data am ix
      | PGap1 => read_gap1 s count data am ix
      | PCnt0 => read_cnt0 s count data am ix
      | PAm => read_am s count data am ix
      | PCnt1 => read_cnt1 s count data am ix
      | PGap2 => read_gap PKey 2 s count data am ix
      | PKey => read_field (d_klen s) PGap3 s count data am ix
      | PGap3 => read_gap PData 1 s count data am ix
      | PData => read_field (d_dlen s) PAm s count data am ix
      | PEnd => Ok (read_end s data am ix)
      | PUnk => Ok (mkRd s data am ix true)
      end in
    if r_go r then
      let r := read_wrap r in
      Ok (r_s r, mkRout (if d_ams (r_s r) then 0 else 1) (r_data r) (r_am r) (r_ix r))
    else Ok (r_s r, mkRout 0 (r_data r) (r_am r) (r_ix r)).

(** *** dasd_write_byte, dasd.c:1211-1624 *)

(** for (i = 0; i < 8; i++) rec[i] = 0xff *)
Definition rec_ff (s : dasd) : res dasd :=
  let* s := rec_put s 0 255 in let* s := rec_put s 1 255 in
  let* s := rec_put s 2 255 in let* s := rec_put s 3 255 in
  let* s := rec_put s 4 255 in let* s := rec_put s 5 255 in
  let* s := rec_put s 6 255 in rec_put s 7 255.
Definition pos5 (s : dasd) : dasd := set_rpos (set_tpos s 5) 5.
Definition sync_to (p : dpos) (s : dasd) : dasd := ck_init (set_state (set_count s 0) p).

(** case DK_POS_INDEX, dasd.c:1268-1296. *)
Definition write_index (s : dasd) (data : Z) : dasd :=
  let s := if data =? 0 then set_count s 0 else s in
  let s := if data =? 255 then set_count s (u16 (d_count s + 1)) else s in
  if data =? (if is14 (d_type s) then 13 else 14)
  then sync_to PHa (set_rpos (set_tpos s 0) 0) else s.

(** case DK_POS_HA, dasd.c:1298-1331. *)
Definition write_ha (s : dasd) (count data : Z) : res dasd :=
  let ty := d_type s in
  if count <=? 4 then
    let* s := rec_put (set_tpos s (u16 (d_tpos s + 1))) count data in Ok (ck_xor s count data)
  else if count =? 6 then
    let s := pos5 (ck_init s) in
    Ok (if is14 ty then s else set_count (set_state s PGap1) 0)
  else if count =? 8 then Ok (set_count (set_state s PGap1) 0)
  else Ok s.

(** case DK_POS_GAP1, dasd.c:1333-1380. *)
Definition write_gap1 (s : dasd) (data : Z) : res dasd :=
  let ty := d_type s in
  let s := if data =? 0 then set_count s 0 else s in
  let s := if data =? 255 then set_count s (u16 (d_count s - 1)) else s in
  let* s := if ty_g1 ty <=? d_count s
            then rec_ff (sync_to PEnd (pos5 s)) else Ok s in
  let s := if data =? (if is14 ty then 11 else 14)
           then sync_to PCnt0 (pos5 s) else s in
  rec_ff s.

(** case DK_POS_CNT0, dasd.c:1382-1432.  The second component is *data. *)
Definition write_cnt0 (s : dasd) (count data : Z) : res (dasd * Z) :=
  let ty := d_type s in
  if count =? 0 then Ok (set_klen s data, data)
  else if count <=? 8 then
    let '(s, data) :=
      if count =? 1 then (set_klen s 0, Z.lor data (if bit (d_klen s) 64 then 128 else 0)) else (s, data) in
    let* s := rec_put (set_tpos s (u16 (d_tpos s + 1))) (count - 1) data in
    Ok (ck_xor s (count - 1) data, data)
  else if count =? 10 then
    let* s := load_lens s in
    let s := ck_init s in
    Ok (if is14 ty then s else after_count s, data)
  else if count =? 12 then
    let* k := rec_at s 5 in
    Ok (set_count (set_state s (if k =? 0 then PGap3 else PGap2)) 0, data)
  else Ok (s, data).

(** case DK_POS_AM, dasd.c:1434-1461. *)
Definition write_am (s : dasd) (data am : Z) : res dasd :=
  let ty := d_type s in
  let s := if data =? 0 then set_count s 0 else s in
  let* s := if am =? 0 then Ok s else rec_ff s in
  let* s :=
    if data =? 255 then
      let s := set_ck0 (set_count s (ty_g1 ty - 1)) (u8 (d_ck0 s + 1)) in
      if d_count s + 10 <? d_ck0 s then rec_ff s else Ok s
    else Ok s in
  if (data =? 14) && (ty_g1 ty <=? d_count s)
  then rec_ff (set_state (set_count (ck_init s) 0) PCnt1) else Ok s.

(** case DK_POS_CNT1, dasd.c:1463-1497. *)
Definition write_cnt1 (s : dasd) (count data : Z) : res (dasd * Z) :=
  if count =? 0 then Ok (set_klen (set_rpos (set_rcnt s (u8 (d_rcnt s + 1))) (d_tpos s)) data, data)
  else if count <=? 8 then
    let '(s, data) :=
      if count =? 1 then (set_klen s 0, Z.lor data (if bit (d_klen s) 64 then 128 else 0)) else (s, data) in
    let da := d_tpos s + d_tstart s in
    let* s := putb (set_tpos s (u16 (d_tpos s + 1))) da data in
    Ok (ck_xor s (d_count s - 1) data, data)
  else if (count =? 9) || (count =? 10) then
    let* s := load_lens s in
    Ok (ck_init (set_count (after_count s) 65535), data)
  else Ok (s, data).

(** case DK_POS_GAP2, dasd.c:1499-1527. *)
Definition write_gap2 (s : dasd) (data : Z) : dasd :=
  let s := if data =? 0 then set_count s 0 else s in
  let s := if data =? 255 then set_count s (u16 (d_count s - 1)) else s in
  if data =? (if is14 (d_type s) then 10 else 14) then sync_to PKey s else s.

(** case DK_POS_GAP3, dasd.c:1540-1594. *)
Definition write_gap3 (s : dasd) (data : Z) : res dasd :=
  let ty := d_type s in
  let s := if data =? 204 then set_count s 0 else s in
  let s := if data =? 255 then set_count s (u16 (d_count s - 1)) else s in
  let* s := if ty_g2 ty <=? d_count s
            then rec_ff (sync_to PEnd (pos5 s)) else Ok s in
  Ok (if data =? (if is14 ty then 9 else 14) then sync_to PData s else s).

(** cases DK_POS_KEY (dasd.c:1529-1538) and DK_POS_DATA (1596-1609). *)
Definition write_field (len : Z) (next : dpos) (s : dasd) (data : Z) : res dasd :=
  if d_count s <=? len then
    let da := d_tpos s + d_tstart s in
    let* s := putb (set_tpos s (u16 (d_tpos s + 1))) da data in
    Ok (ck_xor s (d_count s) data)
  else if d_count s =? len + 2 then
    let s := set_count (set_state s next) 0 in
    Ok (match next with PAm => set_ck0 (set_rpos s (d_tpos s)) 0 | _ => s end)
  else Ok s.

Definition dasd_write_byte (s : dasd) (data am ix : Z) : res (dasd * rout) :=
  let ty := d_type s in
  if d_step s <? ty_rate ty then Ok (set_step s (d_step s + 1), mkRout 0 data am ix)
  else
    let s := set_step s 0 in
    let '(s, ix) :=
      if d_tsize s <=? d_tpos s
      then (set_count (set_tpos (set_cpos (set_state s PIndex) 65535) 65535) 0, 1)
      else (s, ix) in
    let count := d_count s in
    let s := set_cpos (set_count s (u16 (d_count s + 1))) (u16 (d_cpos s + 1)) in
    let* (s, data) :=
      match d_state s with
      | PIndex => Ok (write_index s data, data)
      | PHa => let* s := write_ha s count data in Ok (s, data)
      | PGap1 => let* s := write_gap1 s data in Ok (s, data)
      | PCnt0 => write_cnt0 s count data
      | PAm => let* s := write_am s data am in Ok (s, data)
      | PCnt1 => write_cnt1 s count data
      | PGap2 => Ok (write_gap2 s data, data)
      | PKey => let* s := write_field (d_klen s) PGap3 s data in Ok (s, data)
      | PGap3 => let* s := write_gap3 s data in Ok (s, data)
      | PData => let* s := write_field (d_dlen s) PAm s data in Ok (s, data)
      | PEnd => Ok (set_dlen (set_klen (set_count (set_tpos s (u16 (d_tpos s + 10))) 0) 0) 0, data)
      | PUnk => Ok (s, data)
      end in
    if ty_bpt (d_type s) + 1 <=? d_cpos s
    then Ok (set_state (set_cpos s 65535) PIndex, mkRout 1 data am 1)
    else Ok (s, mkRout 1 data am ix).

(** *** Formatting, attaching and detaching *)

(** (bpt | 0x1ff) + 1 *)
Definition ty_tsize (t : dtype) : Z := Z.lor (ty_bpt t) 511 + 1.

Definition le32 (x : Z) : list Z := [x mod 256; x / 256 mod 256; x / 65536 mod 256; x / 16777216 mod 256].
Definition le16 (x : Z) : list Z := [x mod 256; x / 256 mod 256].
Definition of_le (l : list Z) : Z := fold_right (fun b r => b + 256 * r) 0 l.
Definition magic : list Z := [67; 75; 68; 95; 80; 51; 55; 48].   (* "CKD_P370" *)

(** The struct dasd_header dasd_format writes, dasd.c:1853-1866; highcyl is 16 bit wide. *)
Definition header (t : dtype) : list Z :=
  magic ++ le32 (ty_heads t) ++ le32 (ty_tsize t) ++ [ty_dev t; 0] ++ le16 (ty_cyl t) ++ repeat 0 492.

(** ipl1rec, ipl2key, volrec, dasd.c:1824-1841. *)
Definition ipl1rec : list Z :=
  [201;215;211;241; 0;6;0;0;0;0;0;15; 3;0;0;0;0;0;0;1; 0;0;0;0;0;0;0;0].
Definition ipl2key : list Z := [201;215;211;242].
Definition volrec : list Z :=
  [229;214;211;241; 229;214;211;241; 241;241;241;241;241;241; 64;0;0;0;1;1]
  ++ repeat 64 25 ++ [226;201;212;200;64] ++ repeat 64 34.

(** Bytes from [p] on in the buffer. *)
Definition blit (b : list Z) (p : Z) (l : list Z) : res (list Z) :=
  if (0 <=? p) && (p + Z.of_nat (length l) <=? Z.of_nat (length b))
  then Ok (firstn (Z.to_nat p) b ++ l ++ skipn (Z.to_nat p + length l) b) else UB.

(** The cell p of the volume record: dasd.c:1929-1935.  A negative character is an index below the
    table, and one above 127 cannot be. *)
Fixpoint vol_bytes (label : list Z) (p : nat) (l : list Z) : res (list Z) :=
  match l with
  | [] => Ok []
  | v :: r =>
    let* x :=
      if (Nat.leb 8 p && Nat.leb p 16)%bool then
        match nth_error label (p - 8) with
        | Some c => if c =? 0 then Ok v else if c <? 128 then tab ascii_to_ebcdic c else UB
        | None => UB
        end
      else Ok v in
    let* r := vol_bytes label (S p) r in
    Ok (x :: r)
  end.

Definition cchh (c h : Z) : list Z := [c / 256; c mod 256; h / 256; h mod 256].

(** One track, dasd.c:1877-1946: home address, R0, R1 (or the IPL and volume records), end mark. *)
Definition format_track (b label : list Z) (flag : bool) (c h pos : Z) : res (list Z) :=
  let* b := blit b pos ([0] ++ cchh c h ++ cchh c h ++ [0; 0; 0; 8]) in
  let pos := pos + 21 in
  if (c =? 0) && (h =? 0) && flag then
    let* b := blit b pos (cchh c h ++ [1; 4; 0; 24] ++ ipl1rec ++ cchh c h ++ [2; 4; 0; 144] ++ ipl2key) in
    let pos := pos + 48 + 144 in
    let* v := vol_bytes label 0 volrec in
    blit b pos (cchh c h ++ [3; 4; 0; 80] ++ v ++ [255; 255; 255; 255])
  else blit b pos (cchh c h ++ [1; 0; 0; 0] ++ [255; 255; 255; 255]).

Fixpoint format_heads (n : nat) (b label : list Z) (flag : bool) (tsize c h : Z) : res (list Z) :=
  match n with
  | O => Ok b
  | S m =>
    let* b := format_track b label flag c h (tsize * h) in
    format_heads m b label flag tsize c (h + 1)
  end.

(** The cylinder loop: what is written, and the buffer is cleared after each write. *)
Fixpoint format_cyls (n : nat) (b label : list Z) (flag : bool) (t : dtype) (c : Z) : res (list Z * list Z) :=
  match n with
  | O => Ok ([], b)
  | S m =>
    let len := Z.to_nat (ty_tsize t * ty_heads t) in
    let* b := format_heads (Z.to_nat (ty_heads t)) b label flag (ty_tsize t) c 0 in
    let* (w, b') := format_cyls m (repeat 0 len ++ skipn len b) label flag t (c + 1) in
    Ok (firstn len b ++ w, b')
  end.

(** dasd_format, dasd.c:1843-1955.  The file position is at the end of the header after the header was
    written, and a longer old file keeps its tail. *)
Definition dasd_format (s : dasd) (flag : bool) : res dasd :=
  let t := d_type s in
  let len := Z.to_nat (ty_tsize t * ty_heads t) in
  let b := match d_cbuf s with [] => repeat 0 len | b => b end in
  let* (w, b) := format_cyls (Z.to_nat (ty_cyl t)) b (d_label s) flag t 0 in
  let f := match d_file s with Some f => f | None => [] end in
  Ok (set_tsize (set_cbuf (set_file s (Some (over f 0 (header t ++ w)))) b) (ty_tsize t)).

Definition is_header (f : list Z) : bool :=
  Nat.leb 512 (length f) && if list_eq_dec Z.eq_dec (firstn 8 f) magic then true else false.

(** The search in disk_type[], dasd.c:2010-2023. *)
Definition ty_match (heads tracksize devtype isize : Z) (t : dtype) : bool :=
  (devtype =? ty_dev t) && (tracksize =? ty_tsize t) && (heads =? ty_heads t)
  && (512 + ty_tsize t * ty_heads t * (ty_cyl t + 1) =? isize).

Definition header_field (f : list Z) (p n : nat) : Z := of_le (firstn n (skipn p f)).

(** The volume id, dasd.c:2049-2071. *)
Definition skip_rec (s : dasd) (pos : Z) : res Z :=
  let* k := getb s (pos + 5) in
  let* h := getb s (pos + 6) in
  let* l := getb s (pos + 7) in
  Ok (pos + 8 + k + (h * 256 + l)).

Fixpoint get_bytes (n : nat) (s : dasd) (p : Z) : res (list Z) :=
  match n with
  | O => Ok []
  | S m => let* b := getb s p in let* r := get_bytes m s (p + 1) in Ok (b :: r)
  end.

Fixpoint to_ascii (l : list Z) : res (list Z) :=
  match l with
  | [] => Ok []
  | b :: r => let* a := tab ebcdic_to_ascii b in let* r := to_ascii r in Ok (a :: r)
  end.

(** The comparison stops at the first byte that differs. *)
Fixpoint same_bytes (s : dasd) (p : Z) (l : list Z) : res bool :=
  match l with
  | [] => Ok true
  | v :: r => let* b := getb s p in if b =? v then same_bytes s (p + 1) r else Ok false
  end.

Definition read_volid (s : dasd) : res dasd :=
  let* p := skip_rec s 5 in
  let* p := skip_rec s p in
  let* p := skip_rec s p in
  let* k := getb s (p + 5) in
  let* h := (if k =? 4 then getb s (p + 6) else Ok 1) in
  let* l := (if h =? 0 then getb s (p + 7) else Ok 0) in
  if l =? 80 then
    let* e := same_bytes s (p + 8) (firstn 8 volrec) in
    if e then
      let* v := get_bytes 8 s (p + 16) in
      let* v := to_ascii v in
      Ok (set_label s (v ++ [0]))
    else Ok s
  else Ok s.

(** dasd_attach, dasd.c:1957-2072, for a file that can be opened; [f] is what is in it.  The result
    is 1 in every case modelled. *)
Definition dasd_attach (s : dasd) (f : list Z) (init : bool) : res dasd :=
  let s := set_file s (Some f) in
  let* s := if is_header f && negb init then Ok s else dasd_format s init in
  let f := match d_file s with Some f => f | None => [] end in
  let heads := header_field f 8 4 in
  let tracksize := header_field f 12 4 in
  let devtype := header_field f 16 1 in
  let s := match find (ty_match heads tracksize devtype (Z.of_nat (length f))) all_types with
           | Some t => set_type s t
           | None => s
           end in
  let tsize := u32 (tracksize * heads) in
  let s := set_tsize s tracksize in
  let s := match d_cbuf s with [] => set_cbuf s (repeat 0 (Z.to_nat tsize)) | _ => s end in
  let* s := file_read s 512 tsize in
  let s := set_fpos s 512 in
  let s := set_tstart (set_cyl (set_status s 160) 0) 0 in
  read_volid s.

(** dasd_detach, dasd.c:2074-2093. *)
Definition dasd_detach (s : dasd) : res (dasd * list Z) :=
  let tsize := u32 (d_tsize s * ty_heads (d_type s)) in
  let* s := if d_dirty s
            then (let* s := file_write s (d_fpos s) tsize in Ok (set_dirty s false))
            else Ok s in
  let f := match d_file s with Some f => f | None => [] end in
  Ok (set_status (set_cbuf (set_file s None) []) 0, f).

(** A drive as calloc leaves it, with its type set: DEV.fmt etc. of the callers are not modelled. *)
Definition new_drive (t : dtype) : dasd :=
  mkDasd None [] (repeat 0 9) t 0 0 0 false false 0 false 0 0 0 0 0 0 0 0 0 0 0 PIndex false 0 0 0 0.
