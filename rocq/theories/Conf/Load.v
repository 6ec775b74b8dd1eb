(** Model of /repo/src/conf.c: load_config and load_line, and of some of the functions they call through the list of devices:
    model2030_create, model2050_create, logLEVEL_create, logENABLE_create and logDISABLE_create.
    The list of devices that the linker makes (dev_list, conf.c:341-352) is a list of entries; the create functions are a
    parameter: a number selects one, and it is given the memory behind line_ptr, line_ptr, the options and the rest of the
    simulator, of any type W.  What is printed is a list of events, together with the calls and the closing of the file. *)
From Verif Require Export Conf.Model.

(** struct _control, device/device.h:156-163 *)
Record entry := mkEntry { e_name : list Z; e_type : Z; e_create : nat }.

Inductive event :=
| Create (k : nat) (p : nat) (o : option_t)   (* (devlist->create)(&opt), with line_ptr at p *)
| Missing (n : list Z)                        (* Missing address on %s *)
| Unable (n : list Z)                         (* Unable to create device %s *)
| UnableLog (n : list Z)                      (* Unable to set log %s *)
| BadType (t : Z)                             (* Unknown type %d *)
| Unknown (n : list Z)                        (* Unknown device %s *)
| NoFile                                      (* Unable to open configuration file *)
| Closed.                                     (* fclose(config) *)

Section Load.
Context {W : Type}.
Definition creator := nat -> mem -> nat -> option_t -> W -> res (W * option_t * bool).
(** What a line leaves: the simulator, the options, what was seen, and whether the caller goes on (false: return 0). *)
Definition left : Type := W * option_t * list event * bool.

(** conf.c:388-403, 440-452: the call and its message. *)
Definition call (create : creator) (msg : list Z -> event) (e : entry) (m : mem) (p : nat) (o : option_t) (w : W) : res left :=
  let* g := create (e_create e) m p o w in
  let '(w', o', ok) := g in
  if ok : bool then Ok (w', o', [Create (e_create e) p o], true) else Ok (w', o', [Create (e_create e) p o; msg (o_opt o')], false).

(** The switch, conf.c:375-407 and 428-457; the types are in conf.h:43-48. *)
Definition entry_line (create : creator) (e : entry) (m : mem) (p : nat) (o : option_t) (w : W) : res left :=
  let t := e_type e in
  if t =? 0 then Ok (w, o, [], true)
  else if (t =? 2) || (t =? 3) || (t =? 4) then
    let* g := get_addr m p o in
    let '(p', o', ok) := g in
    if ok : bool then call create Unable e m p' o' w else Ok (w, o', [Missing (o_opt o')], false)
  else if t =? 1 then call create Unable e m p o w
  else if t =? 5 then call create UnableLog e m p o w
  else Ok (w, o, [BadType t], true).

(** The search, conf.c:372-411 and 425-461. *)
Fixpoint search (create : creator) (devs : list entry) (m : mem) (p : nat) (o : option_t) (w : W) : res left :=
  match devs with
  | [] => Ok (w, o, [Unknown (o_opt o)], true)
  | e :: r => if str_eqb (o_opt o) (e_name e) then entry_line create e m p o w else search create r m p o w
  end.

(** load_line, conf.c:416-464, from line_ptr at the start of the memory; also the body of the loop of load_config. *)
Definition load_line (create : creator) (devs : list entry) (m : mem) (o : option_t) (w : W) : res left :=
  let* g := get_model m 0 o in
  let '(p, o, ok) := g in
  if ok : bool then search create devs m p o w else Ok (w, o, [], true).

(** fgets for n-1 characters: what is stored, and the rest of the file. *)
Fixpoint fgets (n : nat) (l : list Z) : list Z * list Z :=
  match n with
  | O => ([], l)
  | S n => match l with
           | [] => ([], [])
           | c :: r => if c =? 10 then ([c], r) else let (a, b) := fgets n r in (c :: a, b)
           end
  end.
(** line_buffer after fgets: what is behind the zero stays. *)
Definition store (a buf : list Z) : mem := a ++ 0 :: skipn (S (length a)) buf.

(** The loop of load_config, conf.c:367-415; one opt for all lines. *)
Fixpoint lines (fuel : nat) (create : creator) (devs : list entry) (buf file : list Z) (o : option_t) (w : W) : res left :=
  match fuel with
  | O => NoFuel
  | S f =>
    match fst (fgets 1023 file) with
    | [] => Ok (w, o, [Closed], true)
    | a =>
      let buf := store a buf in
      let* g := load_line create devs buf o w in
      let '(w, o, ev, ok) := g in
      if ok : bool then
        let* h := lines f create devs buf (snd (fgets 1023 file)) o w in
        let '(w, o, ev', ok) := h in Ok (w, o, ev ++ ev', ok)
      else Ok (w, o, ev ++ [Closed], false)
    end
  end.
(** load_config, conf.c:354-415; None is a file that cannot be opened. *)
Definition load_config (create : creator) (devs : list entry) (buf : list Z) (file : option (list Z)) (o : option_t) (w : W) : res left :=
  match file with
  | None => Ok (w, o, [NoFile], false)
  | Some l => lines (S (length l)) create devs buf l o w
  end.
End Load.
Arguments creator W : clear implicits.
Arguments left W : clear implicits.

(** *** Some create functions *)

(** The part of the simulator they touch: title (whether a CPU is defined), the cells of M, mem_max, the port of the console,
    log_level and log_enable. *)
Record sys := mkSys { y_title : bool; y_cells : Z; y_max : Z; y_port : Z; y_level : Z; y_log : bool }.

(** while (get_option(&opts)) body; the body says whether it goes on (true) or returns 0. *)
Fixpoint each_option {A} (fuel : nat) (body : option_t -> A -> res (A * bool)) (m : mem) (p : nat) (o : option_t) (a : A) : res (A * bool) :=
  match fuel with
  | O => NoFuel
  | S f =>
    let* g := get_option m p o in
    let '(p, o, ok) := g in
    if ok : bool then (let* b := body o a in if snd b then each_option f body m p o (fst b) else Ok b) else Ok (a, true)
  end.
(** struct _option opts; not initialized. *)
Definition fresh : option_t := mkOpt [] 0 None 0 0 0 [].

(** strcmp(opts.opt, "PORT") == 0 && get_integer(&opts, &v), model2030.c:62-71; port is a uint16_t *)
Definition PORT : list Z := [80; 79; 82; 84].
Definition port_body (o : option_t) (port : Z) : res (Z * bool) :=
  if str_eqb (o_opt o) PORT then
    let* v := get_integer o in if snd v then Ok (fst v mod 65536, true) else Ok (port, false)
  else Ok (port, false).
(** 2048 << (model - 'A'): no letter read from an opt that nothing was stored in; in an int *)
Definition cells (model : Z) : res Z :=
  let k := model - 65 in
  if (0 <=? k) && (k <=? 19) then Ok (Z.shiftl 2048 k) else UB.
(** model2030_create, model2030/model2030.c:44-88; [room] says whether calloc succeeds. *)
Definition create2030 (fuel : nat) (room : Z -> bool) (m : mem) (p : nat) (opt : option_t) (w : sys) : res (sys * bool) :=
  if y_title w then Ok (w, false)
  else
    let w := mkSys true (y_cells w) (y_max w) (y_port w) (y_level w) (y_log w) in
    let* q := each_option fuel port_body m p fresh 3270 in
    if negb (snd q) then Ok (w, false)
    else
      match o_model opt with
      | None => UB
      | Some c =>
        let* s := if c =? 0 then Ok 65536 else cells c in
        if negb (c =? 0) && (65536 <? s) then Ok (w, false)
        else if negb (room s) then Ok (w, false)
        else Ok (mkSys true s (s - 1) (fst q) (y_level w) (y_log w), true)
      end.
(** model2050_create, model2050/cpu2050.c:6305-6332; the cells are words here, and no options are read. *)
Definition create2050 (room : Z -> bool) (opt : option_t) (w : sys) : res (sys * bool) :=
  if y_title w then Ok (w, false)
  else
    let w := mkSys true (y_cells w) (y_max w) (y_port w) (y_level w) (y_log w) in
    match o_model opt with
    | None => UB
    | Some c =>
      let* s := if c =? 0 then Ok 65536 else cells c in
      if negb (c =? 0) && ((s <? 65536) || (524288 <? s)) then Ok (w, false)
      else if negb (room (s / 4)) then Ok (w, false)
      else Ok (mkSys true (s / 4) (s - 1) (y_port w) (y_level w) (y_log w), true)
    end.

(** log_type, logger.c:41-64 with the masks of logger.h:36-54, in this order. *)
Definition log_type : list (Z * list Z) :=
  [(1, [73;78;70;79]); (2, [87;65;82;78]); (4, [69;82;82;79;82]); (8, [84;82;65;67;69]); (16, [73;84;82;65;67;69]);
   (32, [77;73;67;82;79]); (64, [82;69;71]); (128, [77;69;77]); (256, [77;80;88;67;72;78]); (512, [83;69;76;67;72;78]);
   (1024, [68;69;86;73;67;69]); (2048, [67;79;78;83;79;76;69]); (4096, [84;65;80;69]); (8192, [68;73;83;75]); (16384, [67;65;82;68]);
   (32768, [68;77;73;67;82;79]); (65536, [68;82;69;71]); (131072, [69;86;69;78;84]); (262144, [70;82;69;71])].
Fixpoint log_mask (l : list (Z * list Z)) (n : list Z) : option Z :=
  match l with [] => None | (k, x) :: r => if str_eqb n x then Some k else log_mask r n end.
(** The body, logger.c:227-242: log_level and r. *)
Definition level_body (o : option_t) (a : Z * bool) : res ((Z * bool) * bool) :=
  if negb (o_flags o =? 0) then Ok ((fst a, false), true)
  else match log_mask log_type (o_opt o) with
       | Some k => Ok ((Z.lor (fst a) k, snd a), true)
       | None => Ok ((fst a, false), true)
       end.
(** logLEVEL_create, logger.c:219-245 *)
Definition createLEVEL (fuel : nat) (m : mem) (p : nat) (w : sys) : res (sys * bool) :=
  let* q := each_option fuel level_body m p fresh (y_level w, true) in
  let '(a, _) := q in Ok (mkSys (y_title w) (y_cells w) (y_max w) (y_port w) (fst a) (y_log w), snd a).
(** logENABLE_create and logDISABLE_create, logger.c:247-261 *)
Definition createENABLE (w : sys) : sys * bool := (mkSys (y_title w) (y_cells w) (y_max w) (y_port w) (y_level w) true, true).
Definition createDISABLE (w : sys) : sys * bool := (mkSys (y_title w) (y_cells w) (y_max w) (y_port w) (y_level w) false, true).

(** These functions in a list of devices, for the examples; the numbers are ours. *)
Definition creates (fuel : nat) (room : Z -> bool) : creator sys := fun k m p o w =>
  let give (r : res (sys * bool)) := let* g := r in Ok (fst g, o, snd g) in
  match k with
  | 0%nat => give (create2030 fuel room m p o w)
  | 1%nat => give (create2050 room o w)
  | 2%nat => give (createLEVEL fuel m p w)
  | 3%nat => give (Ok (createENABLE w))
  | 4%nat => give (Ok (createDISABLE w))
  | _ => UB
  end.
