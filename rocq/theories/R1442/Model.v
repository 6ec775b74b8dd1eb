(** Model of the card reader and punch, /repo/src/model1442/model1442.c and the keys of panel1442.c:223-300.
    Flags that only ever hold 0 or 1 are booleans.  The card contexts are those of Card.Model.  The event queue is the list
    of the callbacks that are pending for this device; when they come is left open.
    Not modelled: log messages, drawing, the fields addr/chan/selected/request/addressed/stacked of the context, which
    nothing sets after model1442_init (ctx->selected is read by the NPRO key and is always 0), and stk_cnt, which is only
    displayed. *)
From Verif Require Export Chan.Bus Card.Model.

Definition upd_card (c : card) (i : Z) (v : Z) : card := upd c (Z.to_nat i) v.
Definition col (c : card) (i : Z) : res Z := tab c i.

Inductive cb := CbRead | CbWrite | CbFeed.
Definition cb_eqb (a b : cb) : bool := match a, b with CbRead, CbRead | CbWrite, CbWrite | CbFeed, CbFeed => true | _, _ => false end.

(** struct _1442_context, model1442.h:33-68, and the fields selected, request, stacked of struct _device. *)
Record dev := mkD {
  d_st : dstate;
  d_sel : bool;
  d_req : bool;
  d_stk : bool;
  d_disc : bool;
  d_busy : bool;
  d_sense : Z;
  d_cmd : Z;
  d_cmd_done : bool;
  d_status : Z;
  d_data : Z;
  d_data_rdy : bool;
  d_data_end : bool;
  d_post : bool;
  d_feed_done : bool;
  d_feed : Card.Model.ctx;
  d_stack0 : Card.Model.ctx;
  d_stack1 : Card.Model.ctx;
  d_rdr_card : card;
  d_rdr_col : Z;
  d_rdr_full : bool;
  d_hop_cnt : Z;
  d_pch_card : card;
  d_pch_col : Z;
  d_pch_full : bool;
  d_stk_sel : bool;
  d_rdy : bool;
  d_eof : bool;
  d_stop : bool;
  d_pend : list cb }.
Definition set_st (v : dstate) (s : dev) : dev := mkD v (d_sel s) (d_req s) (d_stk s) (d_disc s) (d_busy s) (d_sense s) (d_cmd s) (d_cmd_done s) (d_status s) (d_data s) (d_data_rdy s) (d_data_end s) (d_post s) (d_feed_done s) (d_feed s) (d_stack0 s) (d_stack1 s) (d_rdr_card s) (d_rdr_col s) (d_rdr_full s) (d_hop_cnt s) (d_pch_card s) (d_pch_col s) (d_pch_full s) (d_stk_sel s) (d_rdy s) (d_eof s) (d_stop s) (d_pend s).
Definition set_sel (v : bool) (s : dev) : dev := mkD (d_st s) v (d_req s) (d_stk s) (d_disc s) (d_busy s) (d_sense s) (d_cmd s) (d_cmd_done s) (d_status s) (d_data s) (d_data_rdy s) (d_data_end s) (d_post s) (d_feed_done s) (d_feed s) (d_stack0 s) (d_stack1 s) (d_rdr_card s) (d_rdr_col s) (d_rdr_full s) (d_hop_cnt s) (d_pch_card s) (d_pch_col s) (d_pch_full s) (d_stk_sel s) (d_rdy s) (d_eof s) (d_stop s) (d_pend s).
Definition set_req (v : bool) (s : dev) : dev := mkD (d_st s) (d_sel s) v (d_stk s) (d_disc s) (d_busy s) (d_sense s) (d_cmd s) (d_cmd_done s) (d_status s) (d_data s) (d_data_rdy s) (d_data_end s) (d_post s) (d_feed_done s) (d_feed s) (d_stack0 s) (d_stack1 s) (d_rdr_card s) (d_rdr_col s) (d_rdr_full s) (d_hop_cnt s) (d_pch_card s) (d_pch_col s) (d_pch_full s) (d_stk_sel s) (d_rdy s) (d_eof s) (d_stop s) (d_pend s).
Definition set_stk (v : bool) (s : dev) : dev := mkD (d_st s) (d_sel s) (d_req s) v (d_disc s) (d_busy s) (d_sense s) (d_cmd s) (d_cmd_done s) (d_status s) (d_data s) (d_data_rdy s) (d_data_end s) (d_post s) (d_feed_done s) (d_feed s) (d_stack0 s) (d_stack1 s) (d_rdr_card s) (d_rdr_col s) (d_rdr_full s) (d_hop_cnt s) (d_pch_card s) (d_pch_col s) (d_pch_full s) (d_stk_sel s) (d_rdy s) (d_eof s) (d_stop s) (d_pend s).
Definition set_disc (v : bool) (s : dev) : dev := mkD (d_st s) (d_sel s) (d_req s) (d_stk s) v (d_busy s) (d_sense s) (d_cmd s) (d_cmd_done s) (d_status s) (d_data s) (d_data_rdy s) (d_data_end s) (d_post s) (d_feed_done s) (d_feed s) (d_stack0 s) (d_stack1 s) (d_rdr_card s) (d_rdr_col s) (d_rdr_full s) (d_hop_cnt s) (d_pch_card s) (d_pch_col s) (d_pch_full s) (d_stk_sel s) (d_rdy s) (d_eof s) (d_stop s) (d_pend s).
Definition set_busy (v : bool) (s : dev) : dev := mkD (d_st s) (d_sel s) (d_req s) (d_stk s) (d_disc s) v (d_sense s) (d_cmd s) (d_cmd_done s) (d_status s) (d_data s) (d_data_rdy s) (d_data_end s) (d_post s) (d_feed_done s) (d_feed s) (d_stack0 s) (d_stack1 s) (d_rdr_card s) (d_rdr_col s) (d_rdr_full s) (d_hop_cnt s) (d_pch_card s) (d_pch_col s) (d_pch_full s) (d_stk_sel s) (d_rdy s) (d_eof s) (d_stop s) (d_pend s).
Definition set_sense (v : Z) (s : dev) : dev := mkD (d_st s) (d_sel s) (d_req s) (d_stk s) (d_disc s) (d_busy s) v (d_cmd s) (d_cmd_done s) (d_status s) (d_data s) (d_data_rdy s) (d_data_end s) (d_post s) (d_feed_done s) (d_feed s) (d_stack0 s) (d_stack1 s) (d_rdr_card s) (d_rdr_col s) (d_rdr_full s) (d_hop_cnt s) (d_pch_card s) (d_pch_col s) (d_pch_full s) (d_stk_sel s) (d_rdy s) (d_eof s) (d_stop s) (d_pend s).
Definition set_cmd (v : Z) (s : dev) : dev := mkD (d_st s) (d_sel s) (d_req s) (d_stk s) (d_disc s) (d_busy s) (d_sense s) v (d_cmd_done s) (d_status s) (d_data s) (d_data_rdy s) (d_data_end s) (d_post s) (d_feed_done s) (d_feed s) (d_stack0 s) (d_stack1 s) (d_rdr_card s) (d_rdr_col s) (d_rdr_full s) (d_hop_cnt s) (d_pch_card s) (d_pch_col s) (d_pch_full s) (d_stk_sel s) (d_rdy s) (d_eof s) (d_stop s) (d_pend s).
Definition set_cmd_done (v : bool) (s : dev) : dev := mkD (d_st s) (d_sel s) (d_req s) (d_stk s) (d_disc s) (d_busy s) (d_sense s) (d_cmd s) v (d_status s) (d_data s) (d_data_rdy s) (d_data_end s) (d_post s) (d_feed_done s) (d_feed s) (d_stack0 s) (d_stack1 s) (d_rdr_card s) (d_rdr_col s) (d_rdr_full s) (d_hop_cnt s) (d_pch_card s) (d_pch_col s) (d_pch_full s) (d_stk_sel s) (d_rdy s) (d_eof s) (d_stop s) (d_pend s).
Definition set_status (v : Z) (s : dev) : dev := mkD (d_st s) (d_sel s) (d_req s) (d_stk s) (d_disc s) (d_busy s) (d_sense s) (d_cmd s) (d_cmd_done s) v (d_data s) (d_data_rdy s) (d_data_end s) (d_post s) (d_feed_done s) (d_feed s) (d_stack0 s) (d_stack1 s) (d_rdr_card s) (d_rdr_col s) (d_rdr_full s) (d_hop_cnt s) (d_pch_card s) (d_pch_col s) (d_pch_full s) (d_stk_sel s) (d_rdy s) (d_eof s) (d_stop s) (d_pend s).
Definition set_data (v : Z) (s : dev) : dev := mkD (d_st s) (d_sel s) (d_req s) (d_stk s) (d_disc s) (d_busy s) (d_sense s) (d_cmd s) (d_cmd_done s) (d_status s) v (d_data_rdy s) (d_data_end s) (d_post s) (d_feed_done s) (d_feed s) (d_stack0 s) (d_stack1 s) (d_rdr_card s) (d_rdr_col s) (d_rdr_full s) (d_hop_cnt s) (d_pch_card s) (d_pch_col s) (d_pch_full s) (d_stk_sel s) (d_rdy s) (d_eof s) (d_stop s) (d_pend s).
Definition set_data_rdy (v : bool) (s : dev) : dev := mkD (d_st s) (d_sel s) (d_req s) (d_stk s) (d_disc s) (d_busy s) (d_sense s) (d_cmd s) (d_cmd_done s) (d_status s) (d_data s) v (d_data_end s) (d_post s) (d_feed_done s) (d_feed s) (d_stack0 s) (d_stack1 s) (d_rdr_card s) (d_rdr_col s) (d_rdr_full s) (d_hop_cnt s) (d_pch_card s) (d_pch_col s) (d_pch_full s) (d_stk_sel s) (d_rdy s) (d_eof s) (d_stop s) (d_pend s).
Definition set_data_end (v : bool) (s : dev) : dev := mkD (d_st s) (d_sel s) (d_req s) (d_stk s) (d_disc s) (d_busy s) (d_sense s) (d_cmd s) (d_cmd_done s) (d_status s) (d_data s) (d_data_rdy s) v (d_post s) (d_feed_done s) (d_feed s) (d_stack0 s) (d_stack1 s) (d_rdr_card s) (d_rdr_col s) (d_rdr_full s) (d_hop_cnt s) (d_pch_card s) (d_pch_col s) (d_pch_full s) (d_stk_sel s) (d_rdy s) (d_eof s) (d_stop s) (d_pend s).
Definition set_post (v : bool) (s : dev) : dev := mkD (d_st s) (d_sel s) (d_req s) (d_stk s) (d_disc s) (d_busy s) (d_sense s) (d_cmd s) (d_cmd_done s) (d_status s) (d_data s) (d_data_rdy s) (d_data_end s) v (d_feed_done s) (d_feed s) (d_stack0 s) (d_stack1 s) (d_rdr_card s) (d_rdr_col s) (d_rdr_full s) (d_hop_cnt s) (d_pch_card s) (d_pch_col s) (d_pch_full s) (d_stk_sel s) (d_rdy s) (d_eof s) (d_stop s) (d_pend s).
Definition set_feed_done (v : bool) (s : dev) : dev := mkD (d_st s) (d_sel s) (d_req s) (d_stk s) (d_disc s) (d_busy s) (d_sense s) (d_cmd s) (d_cmd_done s) (d_status s) (d_data s) (d_data_rdy s) (d_data_end s) (d_post s) v (d_feed s) (d_stack0 s) (d_stack1 s) (d_rdr_card s) (d_rdr_col s) (d_rdr_full s) (d_hop_cnt s) (d_pch_card s) (d_pch_col s) (d_pch_full s) (d_stk_sel s) (d_rdy s) (d_eof s) (d_stop s) (d_pend s).
Definition set_feed (v : Card.Model.ctx) (s : dev) : dev := mkD (d_st s) (d_sel s) (d_req s) (d_stk s) (d_disc s) (d_busy s) (d_sense s) (d_cmd s) (d_cmd_done s) (d_status s) (d_data s) (d_data_rdy s) (d_data_end s) (d_post s) (d_feed_done s) v (d_stack0 s) (d_stack1 s) (d_rdr_card s) (d_rdr_col s) (d_rdr_full s) (d_hop_cnt s) (d_pch_card s) (d_pch_col s) (d_pch_full s) (d_stk_sel s) (d_rdy s) (d_eof s) (d_stop s) (d_pend s).
Definition set_stack0 (v : Card.Model.ctx) (s : dev) : dev := mkD (d_st s) (d_sel s) (d_req s) (d_stk s) (d_disc s) (d_busy s) (d_sense s) (d_cmd s) (d_cmd_done s) (d_status s) (d_data s) (d_data_rdy s) (d_data_end s) (d_post s) (d_feed_done s) (d_feed s) v (d_stack1 s) (d_rdr_card s) (d_rdr_col s) (d_rdr_full s) (d_hop_cnt s) (d_pch_card s) (d_pch_col s) (d_pch_full s) (d_stk_sel s) (d_rdy s) (d_eof s) (d_stop s) (d_pend s).
Definition set_stack1 (v : Card.Model.ctx) (s : dev) : dev := mkD (d_st s) (d_sel s) (d_req s) (d_stk s) (d_disc s) (d_busy s) (d_sense s) (d_cmd s) (d_cmd_done s) (d_status s) (d_data s) (d_data_rdy s) (d_data_end s) (d_post s) (d_feed_done s) (d_feed s) (d_stack0 s) v (d_rdr_card s) (d_rdr_col s) (d_rdr_full s) (d_hop_cnt s) (d_pch_card s) (d_pch_col s) (d_pch_full s) (d_stk_sel s) (d_rdy s) (d_eof s) (d_stop s) (d_pend s).
Definition set_rdr_card (v : card) (s : dev) : dev := mkD (d_st s) (d_sel s) (d_req s) (d_stk s) (d_disc s) (d_busy s) (d_sense s) (d_cmd s) (d_cmd_done s) (d_status s) (d_data s) (d_data_rdy s) (d_data_end s) (d_post s) (d_feed_done s) (d_feed s) (d_stack0 s) (d_stack1 s) v (d_rdr_col s) (d_rdr_full s) (d_hop_cnt s) (d_pch_card s) (d_pch_col s) (d_pch_full s) (d_stk_sel s) (d_rdy s) (d_eof s) (d_stop s) (d_pend s).
Definition set_rdr_col (v : Z) (s : dev) : dev := mkD (d_st s) (d_sel s) (d_req s) (d_stk s) (d_disc s) (d_busy s) (d_sense s) (d_cmd s) (d_cmd_done s) (d_status s) (d_data s) (d_data_rdy s) (d_data_end s) (d_post s) (d_feed_done s) (d_feed s) (d_stack0 s) (d_stack1 s) (d_rdr_card s) v (d_rdr_full s) (d_hop_cnt s) (d_pch_card s) (d_pch_col s) (d_pch_full s) (d_stk_sel s) (d_rdy s) (d_eof s) (d_stop s) (d_pend s).
Definition set_rdr_full (v : bool) (s : dev) : dev := mkD (d_st s) (d_sel s) (d_req s) (d_stk s) (d_disc s) (d_busy s) (d_sense s) (d_cmd s) (d_cmd_done s) (d_status s) (d_data s) (d_data_rdy s) (d_data_end s) (d_post s) (d_feed_done s) (d_feed s) (d_stack0 s) (d_stack1 s) (d_rdr_card s) (d_rdr_col s) v (d_hop_cnt s) (d_pch_card s) (d_pch_col s) (d_pch_full s) (d_stk_sel s) (d_rdy s) (d_eof s) (d_stop s) (d_pend s).
Definition set_hop_cnt (v : Z) (s : dev) : dev := mkD (d_st s) (d_sel s) (d_req s) (d_stk s) (d_disc s) (d_busy s) (d_sense s) (d_cmd s) (d_cmd_done s) (d_status s) (d_data s) (d_data_rdy s) (d_data_end s) (d_post s) (d_feed_done s) (d_feed s) (d_stack0 s) (d_stack1 s) (d_rdr_card s) (d_rdr_col s) (d_rdr_full s) v (d_pch_card s) (d_pch_col s) (d_pch_full s) (d_stk_sel s) (d_rdy s) (d_eof s) (d_stop s) (d_pend s).
Definition set_pch_card (v : card) (s : dev) : dev := mkD (d_st s) (d_sel s) (d_req s) (d_stk s) (d_disc s) (d_busy s) (d_sense s) (d_cmd s) (d_cmd_done s) (d_status s) (d_data s) (d_data_rdy s) (d_data_end s) (d_post s) (d_feed_done s) (d_feed s) (d_stack0 s) (d_stack1 s) (d_rdr_card s) (d_rdr_col s) (d_rdr_full s) (d_hop_cnt s) v (d_pch_col s) (d_pch_full s) (d_stk_sel s) (d_rdy s) (d_eof s) (d_stop s) (d_pend s).
Definition set_pch_col (v : Z) (s : dev) : dev := mkD (d_st s) (d_sel s) (d_req s) (d_stk s) (d_disc s) (d_busy s) (d_sense s) (d_cmd s) (d_cmd_done s) (d_status s) (d_data s) (d_data_rdy s) (d_data_end s) (d_post s) (d_feed_done s) (d_feed s) (d_stack0 s) (d_stack1 s) (d_rdr_card s) (d_rdr_col s) (d_rdr_full s) (d_hop_cnt s) (d_pch_card s) v (d_pch_full s) (d_stk_sel s) (d_rdy s) (d_eof s) (d_stop s) (d_pend s).
Definition set_pch_full (v : bool) (s : dev) : dev := mkD (d_st s) (d_sel s) (d_req s) (d_stk s) (d_disc s) (d_busy s) (d_sense s) (d_cmd s) (d_cmd_done s) (d_status s) (d_data s) (d_data_rdy s) (d_data_end s) (d_post s) (d_feed_done s) (d_feed s) (d_stack0 s) (d_stack1 s) (d_rdr_card s) (d_rdr_col s) (d_rdr_full s) (d_hop_cnt s) (d_pch_card s) (d_pch_col s) v (d_stk_sel s) (d_rdy s) (d_eof s) (d_stop s) (d_pend s).
Definition set_stk_sel (v : bool) (s : dev) : dev := mkD (d_st s) (d_sel s) (d_req s) (d_stk s) (d_disc s) (d_busy s) (d_sense s) (d_cmd s) (d_cmd_done s) (d_status s) (d_data s) (d_data_rdy s) (d_data_end s) (d_post s) (d_feed_done s) (d_feed s) (d_stack0 s) (d_stack1 s) (d_rdr_card s) (d_rdr_col s) (d_rdr_full s) (d_hop_cnt s) (d_pch_card s) (d_pch_col s) (d_pch_full s) v (d_rdy s) (d_eof s) (d_stop s) (d_pend s).
Definition set_rdy (v : bool) (s : dev) : dev := mkD (d_st s) (d_sel s) (d_req s) (d_stk s) (d_disc s) (d_busy s) (d_sense s) (d_cmd s) (d_cmd_done s) (d_status s) (d_data s) (d_data_rdy s) (d_data_end s) (d_post s) (d_feed_done s) (d_feed s) (d_stack0 s) (d_stack1 s) (d_rdr_card s) (d_rdr_col s) (d_rdr_full s) (d_hop_cnt s) (d_pch_card s) (d_pch_col s) (d_pch_full s) (d_stk_sel s) v (d_eof s) (d_stop s) (d_pend s).
Definition set_eof (v : bool) (s : dev) : dev := mkD (d_st s) (d_sel s) (d_req s) (d_stk s) (d_disc s) (d_busy s) (d_sense s) (d_cmd s) (d_cmd_done s) (d_status s) (d_data s) (d_data_rdy s) (d_data_end s) (d_post s) (d_feed_done s) (d_feed s) (d_stack0 s) (d_stack1 s) (d_rdr_card s) (d_rdr_col s) (d_rdr_full s) (d_hop_cnt s) (d_pch_card s) (d_pch_col s) (d_pch_full s) (d_stk_sel s) (d_rdy s) v (d_stop s) (d_pend s).
Definition set_stop (v : bool) (s : dev) : dev := mkD (d_st s) (d_sel s) (d_req s) (d_stk s) (d_disc s) (d_busy s) (d_sense s) (d_cmd s) (d_cmd_done s) (d_status s) (d_data s) (d_data_rdy s) (d_data_end s) (d_post s) (d_feed_done s) (d_feed s) (d_stack0 s) (d_stack1 s) (d_rdr_card s) (d_rdr_col s) (d_rdr_full s) (d_hop_cnt s) (d_pch_card s) (d_pch_col s) (d_pch_full s) (d_stk_sel s) (d_rdy s) (d_eof s) v (d_pend s).
Definition set_pend (v : list cb) (s : dev) : dev := mkD (d_st s) (d_sel s) (d_req s) (d_stk s) (d_disc s) (d_busy s) (d_sense s) (d_cmd s) (d_cmd_done s) (d_status s) (d_data s) (d_data_rdy s) (d_data_end s) (d_post s) (d_feed_done s) (d_feed s) (d_stack0 s) (d_stack1 s) (d_rdr_card s) (d_rdr_col s) (d_rdr_full s) (d_hop_cnt s) (d_pch_card s) (d_pch_col s) (d_pch_full s) (d_stk_sel s) (d_rdy s) (d_eof s) (d_stop s) v.


Definition or_sense m s := set_sense (Z.lor (d_sense s) m) s.
Definition or_status m s := set_status (Z.lor (d_status s) m) s.
(** add_event, and cancel_event of the first pending one. *)
Definition add_ev (k : cb) s := set_pend (d_pend s ++ [k]) s.
Fixpoint remove_cb (k : cb) (l : list cb) : list cb := match l with [] => [] | x :: r => if cb_eqb k x then r else x :: remove_cb k r end.
Definition cancel_ev (k : cb) s := set_pend (remove_cb k (d_pend s)) s.

Definition S_CMDREJ := 128. Definition S_INTERV := 64. Definition S_BUSCHK := 32. Definition S_DATCHK := 8. Definition S_OVRRUN := 4.

(** model1442_feed, model1442.c:733-785. *)
Definition do_feed (s : dev) : res dev :=
  if (hopper_size (d_feed s) =? 0) && negb (d_eof s) then Ok (set_rdy false (or_sense S_INTERV s))
  else
    let* s :=
      if d_pch_full s then
        let* c := stack_card (if d_stk_sel s then d_stack1 s else d_stack0 s) (d_pch_card s) in
        let s := if d_stk_sel s then set_stack1 c s else set_stack0 c s in
        Ok (set_pch_col 0 (set_pch_full false s))
      else Ok s in
    let s := if d_rdr_full s then set_rdr_full false (set_pch_full true (set_pch_card (d_rdr_card s) s)) else s in
    let* s :=
      if negb (d_stop s) then
        let* r := read_card (d_feed s) in
        let s := set_feed (fst r) s in
        let s := match snd r with Some c => set_rdr_full true (set_rdr_card c s) | None => set_rdr_full false s end in
        let s := set_hop_cnt (hopper_size (d_feed s)) s in
        let s := set_rdy (d_rdr_full s) s in
        Ok (if (d_hop_cnt s =? 0) && negb (d_eof s) then set_rdy false s else s)
      else Ok (set_rdy false s) in
    let s := set_rdr_col 0 (set_stop false s) in
    Ok (if d_rdy s then set_sense (Z.land (d_sense s) (Z.lnot S_INTERV)) s else or_sense S_INTERV s).

(** feed_callback, model1442.c:138-160. *)
Definition feed_flags (s : dev) : dev := set_req true (set_feed_done true (set_cmd_done true (set_busy false (or_status SNS_DEVEND s)))).
Definition feed_cb (s : dev) : res dev :=
  let s := feed_flags s in
  if (d_hop_cnt s =? 0) && d_eof s then do_feed (set_eof false (or_status SNS_UNITEXP s))
  else
    let* s := do_feed s in
    Ok (if d_sense s =? 0 then s else or_status SNS_UNITCHK s).

(** read_callback, model1442.c:61-103. *)
Definition read_cb (s : dev) : res dev :=
  if d_data_end s then Ok (or_status SNS_CHNEND (add_ev CbFeed s))
  else if negb (d_data_rdy s) then
    if d_rdr_col s <? 80 then
      let* h := col (d_rdr_card s) (d_rdr_col s) in
      let* d := hol_to_ebcdic h in
      let s := set_data d s in
      let* s := if d =? 256 then Ok (or_sense S_DATCHK (set_data 0 s)) else (let* _ := tab ebcdic_to_ascii d in Ok s) in
      Ok (set_req true (add_ev CbRead (set_data_rdy true (set_rdr_col (d_rdr_col s + 1) s))))
    else Ok (set_req true (add_ev CbFeed (set_data_end true (or_status SNS_CHNEND s))))
  else Ok (set_req true (add_ev CbFeed (set_data_end true (or_status (SNS_CHNEND + SNS_UNITCHK) (or_sense S_OVRRUN s))))).

(** write_callback, model1442.c:105-136.  The argument of ebcdic_to_hol is an uint8_t. *)
Definition write_cb (s : dev) : res dev :=
  if d_data_rdy s then
    let s := set_req true (set_data_end true (or_status (SNS_CHNEND + SNS_UNITCHK) (or_sense S_OVRRUN s))) in
    Ok (if bit (d_cmd s) 128 then add_ev CbFeed s
        else set_cmd 0 (set_busy false (set_cmd_done true (or_status SNS_DEVEND s))))
  else
    let* s :=
      if d_pch_col s <? 80 then
        let* old := col (d_pch_card s) (d_pch_col s) in
        let* h := ebcdic_to_hol (d_data s mod 256) in
        Ok (set_pch_col (d_pch_col s + 1) (set_pch_card (upd_card (d_pch_card s) (d_pch_col s) (Z.lor old h)) s))
      else Ok s in
    Ok (add_ev CbWrite (set_req true (set_data_rdy true s))).

(** device_stop, model1442.c:163-193. *)
Definition device_stop (s : dev) : dev :=
  let s := set_data_end true (or_status SNS_CHNEND s) in
  if Z.land (d_cmd s) 3 =? 1 then
    let s := cancel_ev CbWrite s in
    if bit (d_cmd s) 128 then add_ev CbFeed s
    else
      let s := or_status SNS_DEVEND s in
      let s := if d_sense s =? 0 then s else or_status SNS_UNITCHK s in
      set_cmd 0 (set_busy false (set_cmd_done true s))
  else if Z.land (d_cmd s) 3 =? 2 then add_ev CbFeed (cancel_ev CbRead s)
  else s.

(** The end of device_cmd, model1442.c:296-305. *)
Definition cmd_end (s : dev) : dev :=
  let s := if d_data_end s then or_status SNS_CHNEND s else s in
  if d_cmd_done s then
    let s := or_status SNS_DEVEND s in
    if d_sense s =? 0 then s else or_status SNS_UNITCHK s
  else s.
(** device_cmd, model1442.c:196-306. *)
Definition device_cmd (s : dev) (cmd : Z) : dev :=
  let s := set_status 0 (set_cmd_done true (set_feed_done false (set_data_end true (set_data_rdy false (set_cmd 0 s))))) in
  let k := Z.land cmd 7 in
  if k =? 0 then
    let s := set_cmd_done false (set_data_end false s) in
    if d_sense s =? 0 then s else or_status SNS_UNITCHK s
  else if k =? 1 then
    let s := set_sense (Z.land (d_sense s) S_INTERV) s in
    if bit cmd 92 then cmd_end (or_sense S_CMDREJ s)
    else
      let s := set_stk_sel (bit cmd 32) s in
      if negb (d_pch_full s) then cmd_end s
      else cmd_end (add_ev CbWrite (set_busy true (set_data_rdy true (set_cmd_done false (set_data_end false (set_cmd cmd s))))))
  else if k =? 2 then
    let s := set_sense (Z.land (d_sense s) S_INTERV) s in
    if bit cmd 220 then cmd_end (or_sense S_CMDREJ s)
    else
      let s := set_stk_sel (bit cmd 32) s in
      if negb (d_rdy s) then cmd_end (or_sense S_INTERV s)
      else cmd_end (add_ev CbRead (set_busy true (set_cmd_done false (set_data_end false (set_cmd cmd s)))))
  else if k =? 3 then
    let s := set_sense (Z.land (d_sense s) S_INTERV) s in
    if bit cmd 92 then cmd_end (or_sense S_CMDREJ s)
    else
      let s := set_stk_sel (bit cmd 32) s in
      if negb (bit cmd 128) then or_status (SNS_CHNEND + SNS_DEVEND) s
      else if negb (d_rdy s) then cmd_end (or_sense S_INTERV s)
      else cmd_end (add_ev CbFeed (set_busy true (set_cmd_done false (set_cmd cmd s))))
  else if k =? 4 then
    if negb (cmd =? 4) then cmd_end (or_sense S_CMDREJ s)
    else set_data_rdy true (set_data_end false (set_cmd_done false (set_cmd cmd (set_data (d_sense s) s))))
  else cmd_end (or_sense S_CMDREJ s).

(** model1442_dev, model1442.c:309-727.  [a]: unit->addr; [bo], [bi]: bus_out and *bus_in. *)
Definition dev_step (a : Z) (s : dev) (t : tags) (bo bi : Z) : res (dev * tags * Z) :=
  if negb (opro t) && negb (supo t) then
    (* 320-336: reset *)
    let t := if d_sel s then set_opri false (set_adri false (set_srvi false (set_stai false t))) else t in
    Ok (set_data_rdy false (set_data_end false (set_busy false (set_cmd_done false (set_cmd 0 (set_sense 0 (set_status 0
         (set_st IDLE (set_req false (set_sel false s))))))))), t, bi)
  else
  match d_st s with
  | IDLE => (* 340-409 *)
    let s := set_disc false s in
    if negb (opro t) then Ok (s, t, bi)
    else if opri t then Ok (s, if d_req s || d_stk s then set_reqi false t else t, bi)
    else
      let t := if d_req s || d_stk s then set_reqi (negb (supo t || adro t) || d_data_rdy s) t else t in
      if selo t then
        if adro t then
          if Z.land bo 255 =? Z.land a 255 then
            let t := set_selo false (set_reqi false t) in
            let* bad := bad_parity bo in
            let s := if bad : bool then or_sense S_BUSCHK s else s in
            if d_busy s then
              let* b := with_parity SNS_BSY in
              Ok (set_st BUSY s, set_stai true t, b)
            else
              let* b := with_parity (Z.land a 255) in
              Ok (set_sel true (set_st INIT_SEL s), set_opri true t, b)
          else Ok (s, t, bi)
        else if negb (supo t) && (d_req s || d_stk s) then
          let t := set_opri true (set_selo false (set_reqi false t)) in
          let* b := with_parity (Z.land a 255) in
          Ok (set_st INIT_SEL (set_sel true s), t, b)
        else Ok (s, t, bi)
      else Ok (s, t, bi)
  | INIT_SEL => (* 412-421 *)
    let t := set_selo false t in
    let* b := with_parity (Z.land a 255) in
    if negb (adro t) then Ok (set_st COMMAND s, set_adri true t, b) else Ok (s, t, b)
  | COMMAND => (* 423-473 *)
    let t := set_selo false t in
    let s := set_req false s in
    let* b := with_parity (Z.land a 255) in
    if cmdo t then
      let t := set_adri false t in
      let* bad := bad_parity bo in
      if bad : bool then
        Ok (set_st STATUS (or_sense S_BUSCHK (set_status (SNS_CHNEND + SNS_DEVEND + SNS_UNITCHK)
             (set_data_end false (set_busy false (set_cmd_done false (set_cmd 0 s)))))), t, b)
      else if d_busy s then
        if negb (d_data_end s) then Ok (set_st DATA_1 s, t, b)
        else Ok (set_st STATUS (if d_status s =? 0 then set_status SNS_BSY s else s), t, b)
      else
        let s := set_st STATUS s in
        Ok (if negb (d_stk s) && (d_status s =? 0) then device_cmd s (Z.land bo 255) else s, t, b)
    else if adro t && negb (hldo t) then
      let t := set_opri false (set_adri false t) in
      let s := if negb (d_data_end s) then or_status SNS_CHNEND (set_data_end true s) else s in
      Ok (set_st STATUS_WAIT s, t, b)
    else Ok (s, t, b)
  | STATUS => (* 476-485 *)
    let t := set_stai true (set_adri false (set_selo false t)) in
    let* b := with_parity (d_status s) in
    Ok (set_st STATUS_ACCEPT s, t, b)
  | STATUS_ACCEPT => (* 488-536 *)
    let t := set_selo false t in
    let* b := with_parity (d_status s) in
    if cmdo t then Ok (set_st STATUS_WAIT (set_stk true s), set_opri false (set_stai false t), b)
    else if srvo t then
      let s := set_status 0 s in
      let t := set_stai false t in
      if d_cmd_done s || (d_cmd s =? 0) then
        Ok (set_st STATUS_WAIT (set_busy false (set_cmd 0 (set_cmd_done false (set_post false (set_data_end false (set_stk false s)))))),
            set_opri false t, b)
      else if d_data_end s then Ok (set_st STATUS_WAIT s, if negb (hldo t) then set_opri false t else t, b)
      else Ok (set_st OPR (if negb (d_data_rdy s) then set_disc true s else s), t, b)
    else if adro t then Ok (set_st IDLE s, set_opri false (set_stai false t), b)
    else Ok (s, t, b)
  | STATUS_WAIT => (* 539-550 *)
    let t := set_selo false t in
    if negb (cmdo t) && negb (srvo t) && negb (adro t) then
      if negb (hldo t) || negb (d_busy s) then Ok (set_st IDLE (set_sel false s), set_opri false t, bi)
      else Ok (set_st WAIT_DEVEND s, t, bi)
    else Ok (s, t, bi)
  | BUSY => (* 553-570 *)
    let* b := with_parity SNS_BSY in
    if negb (selo t) then
      let s := set_st IDLE (set_sel false s) in
      let s := if adro t && negb (d_data_end s) then set_req true (set_data_end true (set_data_rdy false s)) else s in
      Ok (s, set_stai false t, b)
    else Ok (s, set_selo false t, b)
  | END_STATUS => (* 573-586 *)
    let t := set_selo false t in
    if cmdo t || srvo t then Ok (s, t, bi)
    else
      let* b := with_parity (d_status s) in
      Ok (set_st END_ACCEPT s, set_stai true t, b)
  | END_ACCEPT => (* 589-634 *)
    let t := set_selo false t in
    let* b := with_parity (d_status s) in
    if cmdo t then Ok (set_st STATUS_WAIT (set_stk true s), set_opri false (set_stai false t), b)
    else if srvo t then
      let s := set_status 0 s in
      if d_cmd_done s then
        Ok (set_st STATUS_WAIT (set_data_end false (set_busy false (set_cmd_done false (set_cmd 0 (set_stk false s))))),
            set_opri false (set_stai false t), b)
      else if d_data_end s then Ok (set_st STATUS_WAIT s, set_opri false (set_stai false t), b)
      else if hldo t then Ok (set_st WAIT_DEVEND s, set_stai false t, b)
      else Ok (set_st STATUS_WAIT s, set_opri false (set_stai false t), b)
    else Ok (s, t, b)
  | WAIT_DEVEND => (* 637-645 *)
    let t := set_selo false t in
    if d_cmd_done s then Ok (set_st STATUS (set_req false s), t, bi) else Ok (s, t, bi)
  | OPR => (* 648-696 *)
    let s := set_req false s in
    let t := set_selo false t in
    if adro t then
      Ok (set_st IDLE (set_sel false (or_status SNS_CHNEND (set_data_rdy false (set_data_end true s)))), set_opri false t, bi)
    else if d_data_rdy s then Ok (set_st DATA_1 s, t, bi)
    else
      let s := if d_cmd s =? 4 then
                 or_status (SNS_CHNEND + SNS_DEVEND) (set_busy false (set_cmd_done true (set_data_end true (set_disc false s))))
               else s in
      if d_data_end s || d_cmd_done s then Ok (set_st END_STATUS s, t, bi)
      else if d_disc s then
        let s := set_disc false s in
        if negb (hldo t) then Ok (set_st IDLE (set_sel false s), set_opri false t, bi) else Ok (s, t, bi)
      else Ok (s, t, bi)
  | DATA_1 => (* 698-711 *)
    let t := set_selo false t in
    if srvo t then Ok (s, t, bi)
    else if supo t then Ok (s, t, bi)
    else
      let* b := with_parity (d_data s) in
      Ok (set_st DATA_2 s, set_srvi true t, b)
  | DATA_2 => (* 713-740 *)
    let t := set_selo false t in
    let* b := with_parity (d_data s) in
    if srvo t || cmdo t then
      let t := set_srvi false t in
      let s := set_data_rdy false s in
      let* s :=
        if bit (d_cmd s) 1 then
          let* bad := bad_parity bo in
          if bad : bool then
            Ok (set_cmd_done true (set_busy false (or_status (SNS_CHNEND + SNS_DEVEND) (set_data_end true
                 (or_status SNS_UNITCHK (or_sense S_BUSCHK s))))))
          else Ok (set_data bo s)
        else Ok s in
      let s := set_st OPR s in
      let s := if cmdo t then device_stop s else s in
      Ok (set_disc true s, t, b)
    else Ok (s, t, b)
  end.

(** The keys of the control panel, panel1442.c:223-300.  [KLoad] gives the file and what read_deck needs; key 10 saves
    stack[0] as well.  At the end hop_cnt is set. *)
Inductive key := KEof | KStart | KNpro | KStop | KEmpty | KLoad (fuel : nat) (junk : nat -> nat -> Z) (bytes : list Z)
  | KBlank (n : Z) | KEmpty1 | KSave1 | KEmpty2 | KSave2.
Definition do_key (s : dev) (k : key) : res dev :=
  let* s :=
    match k with
    | KEof => Ok (set_eof (negb (d_eof s)) s)
    | KStart =>
      match d_st s with
      | IDLE =>
        let* s := if negb (d_rdr_full s) then do_feed s else Ok s in
        Ok (if d_rdr_full s then set_feed_done true (set_data_end true (set_status SNS_DEVEND s)) else s)
      | _ => Ok s
      end
    | KNpro => let* s := do_feed s in Ok (set_eof false s)
    | KStop => Ok (set_stop true s)
    | KEmpty => let* c := empty_cards (d_feed s) in Ok (set_feed c s)
    | KLoad fuel junk bytes => let* c := read_deck fuel junk (d_feed s) bytes in Ok (set_feed c s)
    | KBlank n => let* c := blank_deck (d_feed s) (if 0 <? n then n else 1) in Ok (set_feed c s)
    | KEmpty1 => let* c := empty_cards (d_stack0 s) in Ok (set_stack0 c s)
    | KSave1 => let* c := save_deck (d_stack0 s) in Ok (set_stack0 c s)
    | KEmpty2 => let* c := empty_cards (d_stack1 s) in Ok (set_stack1 c s)
    | KSave2 => let* c := save_deck (d_stack0 s) in Ok (set_stack0 c s)
    end in
  Ok (set_hop_cnt (hopper_size (d_feed s)) s).

(** One pending callback comes (advance() of event.c). *)
Definition fire (s : dev) (k : cb) : res dev :=
  if existsb (cb_eqb k) (d_pend s) then
    let s := cancel_ev k s in
    match k with CbRead => read_cb s | CbWrite => write_cb s | CbFeed => feed_cb s end
  else Ok s.

(** model1442_init, model1442.c:787-838. *)
Definition init_dev : dev :=
  mkD IDLE false false false false false 0 0 false 0 0 false false false false init_ctx init_ctx init_ctx
      blank 0 false 0 blank 0 false false false false false [].
