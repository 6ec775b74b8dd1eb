(** Model of the tape control, /repo/src/model2415/model2415.c and the keys of panel2415.c:258-320.
    Flags that only ever hold 0 or 1 are booleans.  The drives are those of Tape.Model.  The event queue is the list of the
    callbacks that are pending for this device, each with its unit; when they come is left open.
    Not modelled: log messages, drawing, the fields of the context that nothing reads (delay, stk_unit, rew_delay, nunits,
    track_7, sense[4] and sense[5], which are always 0), opening a tape file that cannot be opened, and model2415_create. *)
From Verif Require Export Chan.Bus Tape.Model.

Inductive cb := CbTape | CbDone | CbRew.
Definition cb_eqb (a b : cb) : bool := match a, b with CbTape, CbTape | CbDone, CbDone | CbRew, CbRew => true | _, _ => false end.

(** struct _2415_context, model2415.h:81-129, and the fields selected, request, stacked of struct _device. *)
Record dev := mkD {
  d_st : dstate;
  d_sel : bool;
  d_req : bool;
  d_stk : bool;
  d_sense0 : Z;
  d_sense1 : Z;
  d_sense2 : Z;
  d_sense3 : Z;
  d_scnt : Z;
  d_busy : bool;
  d_chain : bool;
  d_cmd : Z;
  d_cmd_done : bool;
  d_status : Z;
  d_data : Z;
  d_cbuf : Z;
  d_data_rdy : bool;
  d_data_end : bool;
  d_post : bool;
  d_cbusy : bool;
  d_cur : Z;
  d_statu : Z;
  d_scan : Z;
  d_rew : Z;
  d_run : Z;
  d_rdyf : Z;
  d_mrk : Z;
  d_tapes : list (option tape);
  d_cc : Z;
  d_mode7 : Z;
  d_mode9 : Z;
  d_pend : list (cb * Z) }.

Definition set_st (v : dstate) (s : dev) : dev := mkD v (d_sel s) (d_req s) (d_stk s) (d_sense0 s) (d_sense1 s) (d_sense2 s) (d_sense3 s) (d_scnt s) (d_busy s) (d_chain s) (d_cmd s) (d_cmd_done s) (d_status s) (d_data s) (d_cbuf s) (d_data_rdy s) (d_data_end s) (d_post s) (d_cbusy s) (d_cur s) (d_statu s) (d_scan s) (d_rew s) (d_run s) (d_rdyf s) (d_mrk s) (d_tapes s) (d_cc s) (d_mode7 s) (d_mode9 s) (d_pend s).
Definition set_sel (v : bool) (s : dev) : dev := mkD (d_st s) v (d_req s) (d_stk s) (d_sense0 s) (d_sense1 s) (d_sense2 s) (d_sense3 s) (d_scnt s) (d_busy s) (d_chain s) (d_cmd s) (d_cmd_done s) (d_status s) (d_data s) (d_cbuf s) (d_data_rdy s) (d_data_end s) (d_post s) (d_cbusy s) (d_cur s) (d_statu s) (d_scan s) (d_rew s) (d_run s) (d_rdyf s) (d_mrk s) (d_tapes s) (d_cc s) (d_mode7 s) (d_mode9 s) (d_pend s).
Definition set_req (v : bool) (s : dev) : dev := mkD (d_st s) (d_sel s) v (d_stk s) (d_sense0 s) (d_sense1 s) (d_sense2 s) (d_sense3 s) (d_scnt s) (d_busy s) (d_chain s) (d_cmd s) (d_cmd_done s) (d_status s) (d_data s) (d_cbuf s) (d_data_rdy s) (d_data_end s) (d_post s) (d_cbusy s) (d_cur s) (d_statu s) (d_scan s) (d_rew s) (d_run s) (d_rdyf s) (d_mrk s) (d_tapes s) (d_cc s) (d_mode7 s) (d_mode9 s) (d_pend s).
Definition set_stk (v : bool) (s : dev) : dev := mkD (d_st s) (d_sel s) (d_req s) v (d_sense0 s) (d_sense1 s) (d_sense2 s) (d_sense3 s) (d_scnt s) (d_busy s) (d_chain s) (d_cmd s) (d_cmd_done s) (d_status s) (d_data s) (d_cbuf s) (d_data_rdy s) (d_data_end s) (d_post s) (d_cbusy s) (d_cur s) (d_statu s) (d_scan s) (d_rew s) (d_run s) (d_rdyf s) (d_mrk s) (d_tapes s) (d_cc s) (d_mode7 s) (d_mode9 s) (d_pend s).
Definition set_sense0 (v : Z) (s : dev) : dev := mkD (d_st s) (d_sel s) (d_req s) (d_stk s) v (d_sense1 s) (d_sense2 s) (d_sense3 s) (d_scnt s) (d_busy s) (d_chain s) (d_cmd s) (d_cmd_done s) (d_status s) (d_data s) (d_cbuf s) (d_data_rdy s) (d_data_end s) (d_post s) (d_cbusy s) (d_cur s) (d_statu s) (d_scan s) (d_rew s) (d_run s) (d_rdyf s) (d_mrk s) (d_tapes s) (d_cc s) (d_mode7 s) (d_mode9 s) (d_pend s).
Definition set_sense1 (v : Z) (s : dev) : dev := mkD (d_st s) (d_sel s) (d_req s) (d_stk s) (d_sense0 s) v (d_sense2 s) (d_sense3 s) (d_scnt s) (d_busy s) (d_chain s) (d_cmd s) (d_cmd_done s) (d_status s) (d_data s) (d_cbuf s) (d_data_rdy s) (d_data_end s) (d_post s) (d_cbusy s) (d_cur s) (d_statu s) (d_scan s) (d_rew s) (d_run s) (d_rdyf s) (d_mrk s) (d_tapes s) (d_cc s) (d_mode7 s) (d_mode9 s) (d_pend s).
Definition set_sense2 (v : Z) (s : dev) : dev := mkD (d_st s) (d_sel s) (d_req s) (d_stk s) (d_sense0 s) (d_sense1 s) v (d_sense3 s) (d_scnt s) (d_busy s) (d_chain s) (d_cmd s) (d_cmd_done s) (d_status s) (d_data s) (d_cbuf s) (d_data_rdy s) (d_data_end s) (d_post s) (d_cbusy s) (d_cur s) (d_statu s) (d_scan s) (d_rew s) (d_run s) (d_rdyf s) (d_mrk s) (d_tapes s) (d_cc s) (d_mode7 s) (d_mode9 s) (d_pend s).
Definition set_sense3 (v : Z) (s : dev) : dev := mkD (d_st s) (d_sel s) (d_req s) (d_stk s) (d_sense0 s) (d_sense1 s) (d_sense2 s) v (d_scnt s) (d_busy s) (d_chain s) (d_cmd s) (d_cmd_done s) (d_status s) (d_data s) (d_cbuf s) (d_data_rdy s) (d_data_end s) (d_post s) (d_cbusy s) (d_cur s) (d_statu s) (d_scan s) (d_rew s) (d_run s) (d_rdyf s) (d_mrk s) (d_tapes s) (d_cc s) (d_mode7 s) (d_mode9 s) (d_pend s).
Definition set_scnt (v : Z) (s : dev) : dev := mkD (d_st s) (d_sel s) (d_req s) (d_stk s) (d_sense0 s) (d_sense1 s) (d_sense2 s) (d_sense3 s) v (d_busy s) (d_chain s) (d_cmd s) (d_cmd_done s) (d_status s) (d_data s) (d_cbuf s) (d_data_rdy s) (d_data_end s) (d_post s) (d_cbusy s) (d_cur s) (d_statu s) (d_scan s) (d_rew s) (d_run s) (d_rdyf s) (d_mrk s) (d_tapes s) (d_cc s) (d_mode7 s) (d_mode9 s) (d_pend s).
Definition set_busy (v : bool) (s : dev) : dev := mkD (d_st s) (d_sel s) (d_req s) (d_stk s) (d_sense0 s) (d_sense1 s) (d_sense2 s) (d_sense3 s) (d_scnt s) v (d_chain s) (d_cmd s) (d_cmd_done s) (d_status s) (d_data s) (d_cbuf s) (d_data_rdy s) (d_data_end s) (d_post s) (d_cbusy s) (d_cur s) (d_statu s) (d_scan s) (d_rew s) (d_run s) (d_rdyf s) (d_mrk s) (d_tapes s) (d_cc s) (d_mode7 s) (d_mode9 s) (d_pend s).
Definition set_chain (v : bool) (s : dev) : dev := mkD (d_st s) (d_sel s) (d_req s) (d_stk s) (d_sense0 s) (d_sense1 s) (d_sense2 s) (d_sense3 s) (d_scnt s) (d_busy s) v (d_cmd s) (d_cmd_done s) (d_status s) (d_data s) (d_cbuf s) (d_data_rdy s) (d_data_end s) (d_post s) (d_cbusy s) (d_cur s) (d_statu s) (d_scan s) (d_rew s) (d_run s) (d_rdyf s) (d_mrk s) (d_tapes s) (d_cc s) (d_mode7 s) (d_mode9 s) (d_pend s).
Definition set_cmd (v : Z) (s : dev) : dev := mkD (d_st s) (d_sel s) (d_req s) (d_stk s) (d_sense0 s) (d_sense1 s) (d_sense2 s) (d_sense3 s) (d_scnt s) (d_busy s) (d_chain s) v (d_cmd_done s) (d_status s) (d_data s) (d_cbuf s) (d_data_rdy s) (d_data_end s) (d_post s) (d_cbusy s) (d_cur s) (d_statu s) (d_scan s) (d_rew s) (d_run s) (d_rdyf s) (d_mrk s) (d_tapes s) (d_cc s) (d_mode7 s) (d_mode9 s) (d_pend s).
Definition set_cmd_done (v : bool) (s : dev) : dev := mkD (d_st s) (d_sel s) (d_req s) (d_stk s) (d_sense0 s) (d_sense1 s) (d_sense2 s) (d_sense3 s) (d_scnt s) (d_busy s) (d_chain s) (d_cmd s) v (d_status s) (d_data s) (d_cbuf s) (d_data_rdy s) (d_data_end s) (d_post s) (d_cbusy s) (d_cur s) (d_statu s) (d_scan s) (d_rew s) (d_run s) (d_rdyf s) (d_mrk s) (d_tapes s) (d_cc s) (d_mode7 s) (d_mode9 s) (d_pend s).
Definition set_status (v : Z) (s : dev) : dev := mkD (d_st s) (d_sel s) (d_req s) (d_stk s) (d_sense0 s) (d_sense1 s) (d_sense2 s) (d_sense3 s) (d_scnt s) (d_busy s) (d_chain s) (d_cmd s) (d_cmd_done s) v (d_data s) (d_cbuf s) (d_data_rdy s) (d_data_end s) (d_post s) (d_cbusy s) (d_cur s) (d_statu s) (d_scan s) (d_rew s) (d_run s) (d_rdyf s) (d_mrk s) (d_tapes s) (d_cc s) (d_mode7 s) (d_mode9 s) (d_pend s).
Definition set_data (v : Z) (s : dev) : dev := mkD (d_st s) (d_sel s) (d_req s) (d_stk s) (d_sense0 s) (d_sense1 s) (d_sense2 s) (d_sense3 s) (d_scnt s) (d_busy s) (d_chain s) (d_cmd s) (d_cmd_done s) (d_status s) v (d_cbuf s) (d_data_rdy s) (d_data_end s) (d_post s) (d_cbusy s) (d_cur s) (d_statu s) (d_scan s) (d_rew s) (d_run s) (d_rdyf s) (d_mrk s) (d_tapes s) (d_cc s) (d_mode7 s) (d_mode9 s) (d_pend s).
Definition set_cbuf (v : Z) (s : dev) : dev := mkD (d_st s) (d_sel s) (d_req s) (d_stk s) (d_sense0 s) (d_sense1 s) (d_sense2 s) (d_sense3 s) (d_scnt s) (d_busy s) (d_chain s) (d_cmd s) (d_cmd_done s) (d_status s) (d_data s) v (d_data_rdy s) (d_data_end s) (d_post s) (d_cbusy s) (d_cur s) (d_statu s) (d_scan s) (d_rew s) (d_run s) (d_rdyf s) (d_mrk s) (d_tapes s) (d_cc s) (d_mode7 s) (d_mode9 s) (d_pend s).
Definition set_data_rdy (v : bool) (s : dev) : dev := mkD (d_st s) (d_sel s) (d_req s) (d_stk s) (d_sense0 s) (d_sense1 s) (d_sense2 s) (d_sense3 s) (d_scnt s) (d_busy s) (d_chain s) (d_cmd s) (d_cmd_done s) (d_status s) (d_data s) (d_cbuf s) v (d_data_end s) (d_post s) (d_cbusy s) (d_cur s) (d_statu s) (d_scan s) (d_rew s) (d_run s) (d_rdyf s) (d_mrk s) (d_tapes s) (d_cc s) (d_mode7 s) (d_mode9 s) (d_pend s).
Definition set_data_end (v : bool) (s : dev) : dev := mkD (d_st s) (d_sel s) (d_req s) (d_stk s) (d_sense0 s) (d_sense1 s) (d_sense2 s) (d_sense3 s) (d_scnt s) (d_busy s) (d_chain s) (d_cmd s) (d_cmd_done s) (d_status s) (d_data s) (d_cbuf s) (d_data_rdy s) v (d_post s) (d_cbusy s) (d_cur s) (d_statu s) (d_scan s) (d_rew s) (d_run s) (d_rdyf s) (d_mrk s) (d_tapes s) (d_cc s) (d_mode7 s) (d_mode9 s) (d_pend s).
Definition set_post (v : bool) (s : dev) : dev := mkD (d_st s) (d_sel s) (d_req s) (d_stk s) (d_sense0 s) (d_sense1 s) (d_sense2 s) (d_sense3 s) (d_scnt s) (d_busy s) (d_chain s) (d_cmd s) (d_cmd_done s) (d_status s) (d_data s) (d_cbuf s) (d_data_rdy s) (d_data_end s) v (d_cbusy s) (d_cur s) (d_statu s) (d_scan s) (d_rew s) (d_run s) (d_rdyf s) (d_mrk s) (d_tapes s) (d_cc s) (d_mode7 s) (d_mode9 s) (d_pend s).
Definition set_cbusy (v : bool) (s : dev) : dev := mkD (d_st s) (d_sel s) (d_req s) (d_stk s) (d_sense0 s) (d_sense1 s) (d_sense2 s) (d_sense3 s) (d_scnt s) (d_busy s) (d_chain s) (d_cmd s) (d_cmd_done s) (d_status s) (d_data s) (d_cbuf s) (d_data_rdy s) (d_data_end s) (d_post s) v (d_cur s) (d_statu s) (d_scan s) (d_rew s) (d_run s) (d_rdyf s) (d_mrk s) (d_tapes s) (d_cc s) (d_mode7 s) (d_mode9 s) (d_pend s).
Definition set_cur (v : Z) (s : dev) : dev := mkD (d_st s) (d_sel s) (d_req s) (d_stk s) (d_sense0 s) (d_sense1 s) (d_sense2 s) (d_sense3 s) (d_scnt s) (d_busy s) (d_chain s) (d_cmd s) (d_cmd_done s) (d_status s) (d_data s) (d_cbuf s) (d_data_rdy s) (d_data_end s) (d_post s) (d_cbusy s) v (d_statu s) (d_scan s) (d_rew s) (d_run s) (d_rdyf s) (d_mrk s) (d_tapes s) (d_cc s) (d_mode7 s) (d_mode9 s) (d_pend s).
Definition set_statu (v : Z) (s : dev) : dev := mkD (d_st s) (d_sel s) (d_req s) (d_stk s) (d_sense0 s) (d_sense1 s) (d_sense2 s) (d_sense3 s) (d_scnt s) (d_busy s) (d_chain s) (d_cmd s) (d_cmd_done s) (d_status s) (d_data s) (d_cbuf s) (d_data_rdy s) (d_data_end s) (d_post s) (d_cbusy s) (d_cur s) v (d_scan s) (d_rew s) (d_run s) (d_rdyf s) (d_mrk s) (d_tapes s) (d_cc s) (d_mode7 s) (d_mode9 s) (d_pend s).
Definition set_scan (v : Z) (s : dev) : dev := mkD (d_st s) (d_sel s) (d_req s) (d_stk s) (d_sense0 s) (d_sense1 s) (d_sense2 s) (d_sense3 s) (d_scnt s) (d_busy s) (d_chain s) (d_cmd s) (d_cmd_done s) (d_status s) (d_data s) (d_cbuf s) (d_data_rdy s) (d_data_end s) (d_post s) (d_cbusy s) (d_cur s) (d_statu s) v (d_rew s) (d_run s) (d_rdyf s) (d_mrk s) (d_tapes s) (d_cc s) (d_mode7 s) (d_mode9 s) (d_pend s).
Definition set_rew (v : Z) (s : dev) : dev := mkD (d_st s) (d_sel s) (d_req s) (d_stk s) (d_sense0 s) (d_sense1 s) (d_sense2 s) (d_sense3 s) (d_scnt s) (d_busy s) (d_chain s) (d_cmd s) (d_cmd_done s) (d_status s) (d_data s) (d_cbuf s) (d_data_rdy s) (d_data_end s) (d_post s) (d_cbusy s) (d_cur s) (d_statu s) (d_scan s) v (d_run s) (d_rdyf s) (d_mrk s) (d_tapes s) (d_cc s) (d_mode7 s) (d_mode9 s) (d_pend s).
Definition set_run (v : Z) (s : dev) : dev := mkD (d_st s) (d_sel s) (d_req s) (d_stk s) (d_sense0 s) (d_sense1 s) (d_sense2 s) (d_sense3 s) (d_scnt s) (d_busy s) (d_chain s) (d_cmd s) (d_cmd_done s) (d_status s) (d_data s) (d_cbuf s) (d_data_rdy s) (d_data_end s) (d_post s) (d_cbusy s) (d_cur s) (d_statu s) (d_scan s) (d_rew s) v (d_rdyf s) (d_mrk s) (d_tapes s) (d_cc s) (d_mode7 s) (d_mode9 s) (d_pend s).
Definition set_rdyf (v : Z) (s : dev) : dev := mkD (d_st s) (d_sel s) (d_req s) (d_stk s) (d_sense0 s) (d_sense1 s) (d_sense2 s) (d_sense3 s) (d_scnt s) (d_busy s) (d_chain s) (d_cmd s) (d_cmd_done s) (d_status s) (d_data s) (d_cbuf s) (d_data_rdy s) (d_data_end s) (d_post s) (d_cbusy s) (d_cur s) (d_statu s) (d_scan s) (d_rew s) (d_run s) v (d_mrk s) (d_tapes s) (d_cc s) (d_mode7 s) (d_mode9 s) (d_pend s).
Definition set_mrk (v : Z) (s : dev) : dev := mkD (d_st s) (d_sel s) (d_req s) (d_stk s) (d_sense0 s) (d_sense1 s) (d_sense2 s) (d_sense3 s) (d_scnt s) (d_busy s) (d_chain s) (d_cmd s) (d_cmd_done s) (d_status s) (d_data s) (d_cbuf s) (d_data_rdy s) (d_data_end s) (d_post s) (d_cbusy s) (d_cur s) (d_statu s) (d_scan s) (d_rew s) (d_run s) (d_rdyf s) v (d_tapes s) (d_cc s) (d_mode7 s) (d_mode9 s) (d_pend s).
Definition set_tapes (v : list (option tape)) (s : dev) : dev := mkD (d_st s) (d_sel s) (d_req s) (d_stk s) (d_sense0 s) (d_sense1 s) (d_sense2 s) (d_sense3 s) (d_scnt s) (d_busy s) (d_chain s) (d_cmd s) (d_cmd_done s) (d_status s) (d_data s) (d_cbuf s) (d_data_rdy s) (d_data_end s) (d_post s) (d_cbusy s) (d_cur s) (d_statu s) (d_scan s) (d_rew s) (d_run s) (d_rdyf s) (d_mrk s) v (d_cc s) (d_mode7 s) (d_mode9 s) (d_pend s).
Definition set_cc (v : Z) (s : dev) : dev := mkD (d_st s) (d_sel s) (d_req s) (d_stk s) (d_sense0 s) (d_sense1 s) (d_sense2 s) (d_sense3 s) (d_scnt s) (d_busy s) (d_chain s) (d_cmd s) (d_cmd_done s) (d_status s) (d_data s) (d_cbuf s) (d_data_rdy s) (d_data_end s) (d_post s) (d_cbusy s) (d_cur s) (d_statu s) (d_scan s) (d_rew s) (d_run s) (d_rdyf s) (d_mrk s) (d_tapes s) v (d_mode7 s) (d_mode9 s) (d_pend s).
Definition set_mode7 (v : Z) (s : dev) : dev := mkD (d_st s) (d_sel s) (d_req s) (d_stk s) (d_sense0 s) (d_sense1 s) (d_sense2 s) (d_sense3 s) (d_scnt s) (d_busy s) (d_chain s) (d_cmd s) (d_cmd_done s) (d_status s) (d_data s) (d_cbuf s) (d_data_rdy s) (d_data_end s) (d_post s) (d_cbusy s) (d_cur s) (d_statu s) (d_scan s) (d_rew s) (d_run s) (d_rdyf s) (d_mrk s) (d_tapes s) (d_cc s) v (d_mode9 s) (d_pend s).
Definition set_mode9 (v : Z) (s : dev) : dev := mkD (d_st s) (d_sel s) (d_req s) (d_stk s) (d_sense0 s) (d_sense1 s) (d_sense2 s) (d_sense3 s) (d_scnt s) (d_busy s) (d_chain s) (d_cmd s) (d_cmd_done s) (d_status s) (d_data s) (d_cbuf s) (d_data_rdy s) (d_data_end s) (d_post s) (d_cbusy s) (d_cur s) (d_statu s) (d_scan s) (d_rew s) (d_run s) (d_rdyf s) (d_mrk s) (d_tapes s) (d_cc s) (d_mode7 s) v (d_pend s).
Definition set_pend (v : list (cb * Z)) (s : dev) : dev := mkD (d_st s) (d_sel s) (d_req s) (d_stk s) (d_sense0 s) (d_sense1 s) (d_sense2 s) (d_sense3 s) (d_scnt s) (d_busy s) (d_chain s) (d_cmd s) (d_cmd_done s) (d_status s) (d_data s) (d_cbuf s) (d_data_rdy s) (d_data_end s) (d_post s) (d_cbusy s) (d_cur s) (d_statu s) (d_scan s) (d_rew s) (d_run s) (d_rdyf s) (d_mrk s) (d_tapes s) (d_cc s) (d_mode7 s) (d_mode9 s) v.

Definition or_sense m s := set_sense0 (Z.lor (d_sense0 s) m) s.
Definition or_status m s := set_status (Z.lor (d_status s) m) s.
(** add_event, and an event taken from the queue. *)
Definition add_ev (k : cb) (u : Z) s := set_pend (d_pend s ++ [(k, u)]) s.
Definition ev_eqb (a b : cb * Z) : bool := cb_eqb (fst a) (fst b) && (snd a =? snd b).
Fixpoint remove_ev (k : cb * Z) (l : list (cb * Z)) : list (cb * Z) :=
  match l with [] => [] | x :: r => if ev_eqb k x then r else x :: remove_ev k r end.

(** f | 1 << u, f & ~(1 << u), f & (1 << u). *)
Definition put (f u : Z) : Z := Z.lor f (2 ^ u).
Definition drop (f u : Z) : Z := Z.land f (Z.lnot (2 ^ u)).
Definition has (f u : Z) : bool := negb (Z.land f (2 ^ u) =? 0).

(** Sense bits, model2415.c:77-105, and modes 133-135. *)
Definition S_CMDREJ := 128. Definition S_INTERV := 64. Definition S_BUSCHK := 32. Definition S_OVRRUN := 4. Definition S_WCZERO := 2. Definition S_DCCHK := 1.
Definition S_NOISE := 128. Definition S_TUA := 64. Definition S_TUB := 32. Definition S_7TRACK := 16. Definition S_LOAD := 8. Definition S_WRITE := 4. Definition S_NORING := 2.
Definition S_VCR := 128. Definition S_LRCR := 64.
Definition M_ODD := 1. Definition M_TRANS := 2. Definition M_CONV := 4.

(** ctx->tape[u]: the array has six entries; and a pointer that must not be NULL. *)
Definition unit_tape (s : dev) (u : Z) : res (option tape) :=
  if u <? 0 then UB else match nth_error (d_tapes s) (Z.to_nat u) with Some o => Ok o | None => UB end.
Definition the_tape (s : dev) (u : Z) : res tape := let* o := unit_tape s u in match o with Some t => Ok t | None => UB end.
Definition set_tape (u : Z) (t : tape) (s : dev) : dev := set_tapes (upd (d_tapes s) (Z.to_nat u) (Some t)) s.
(** tape_9_track(ctx->tape[ctx->cur_unit]), tape.c:85-88. *)
Definition nine (s : dev) : res bool := let* o := unit_tape s (d_cur s) in Ok (match o with Some t => tape_9_track t | None => false end).
(** tape_select and tape_unselect, tape.c:94-106. *)
Definition tape_selected (b : bool) (t : tape) : tape :=
  Tape (t_win t) (t_att t) (t_fmt t) (t_ring t) (t_hi t) (t_eot t) (t_bot t) (t_mark t) (t_func t)
       (t_track9 t) b (t_online t) (t_frame t) (t_lrecl t) (t_orecl t) (t_parity t) (t_srec t).
Definition tape_online (b : bool) (t : tape) : tape :=
  Tape (t_win t) (t_att t) (t_fmt t) (t_ring t) (t_hi t) (t_eot t) (t_bot t) (t_mark t) (t_func t)
       (t_track9 t) (t_sel t) b (t_frame t) (t_lrecl t) (t_orecl t) (t_parity t) (t_srec t).

(** The common end of both parts of model2415_rewind_callback, 147-168 and 176-193. *)
Definition rew_end (s : dev) (u : Z) : res dev :=
  let s := set_rew (drop (d_rew s) u) s in
  if has (d_run s) u then
    let* t := the_tape s u in
    Ok (set_run (drop (d_run s) u) (set_tape u (fst (tape_detach t)) s))
  else if (d_cur s =? u) && negb (match d_st s with IDLE => true | _ => false end) then
    Ok (set_cmd_done true (set_cmd 0 (set_status (Z.land (Z.lor (d_status s) SNS_DEVEND) (Z.lnot (SNS_CTLEND + SNS_UNITCHK))) s)))
  else Ok (set_rdyf (put (d_rdyf s) u) s).
(** model2415_rewind_callback, model2415.c:137-196. *)
Definition rew_cb (s : dev) (u : Z) : res dev :=
  let* t := the_tape s u in
  let '(t', r) := tape_rewind_frames t (if t_frame t <=? 5 * 12 * 1600 then 1 else 3840) in
  let s := set_tape u t' s in
  match r with SBot => rew_end s u | _ => Ok (add_ev CbRew u s) end.

(** done_callback, model2415.c:197-208. *)
Definition done_cb (s : dev) (u : Z) : res dev :=
  let s := set_cmd_done true s in
  let s := if Z.land (d_cmd s) 3 =? 3 then set_rdyf (put (d_rdyf s) u) s else s in
  Ok (or_status SNS_DEVEND s).

(** The data converter on writing, model2415.c:272-306: counter, buffer and byte before and after.  data is an uint8_t. *)
Definition conv_out (cc cbuf data : Z) : Z * Z * Z :=
  if cc =? 0 then (1, Z.land data 3, Z.shiftr data 2)
  else if cc =? 1 then (2, Z.land data 15, Z.lor (Z.shiftl cbuf 4 mod 256) (Z.land (Z.shiftr data 4) 15))
  else if cc =? 2 then (3, Z.land data 63, Z.lor (Z.shiftl cbuf 2 mod 256) (Z.land (Z.shiftr data 6) 3))
  else (0, cbuf, cbuf mod 256).
(** What is left in it at the end of the record, model2415.c:230-250: the byte, and whether it is marked ready. *)
Definition conv_last (cc cbuf data : Z) : Z * bool :=
  if cc =? 0 then (data, false)
  else if cc =? 1 then (Z.shiftl (Z.land cbuf 3) 4, false)
  else if cc =? 2 then (Z.shiftl (Z.land cbuf 15) 2, true)
  else (cbuf mod 256, true).
(** ctx->data &= 077; ctx->data |= parity_table[ctx->data] ^ mode; where mode is an uint8_t set to 0 or 0x100, so 0. *)
Definition six_parity (data : Z) : res Z :=
  let d := Z.land data 63 in
  let* p := tab parity_table d in Ok (Z.lor d p).
(** Translation on writing, model2415.c:263-266. *)
Definition trans_out (data : Z) : Z := Z.lor (Z.lxor (Z.land data 48) 48) (Z.land data 15).
(** The data converter on reading, model2415.c:412-444: counter, buffer (an uint16_t), byte, and whether a byte is complete. *)
Definition conv_in (cc cbuf data : Z) : Z * Z * Z * bool :=
  if cc =? 0 then (1, data, data, false)
  else if cc =? 1 then
    let b := Z.lor cbuf (Z.shiftl data 6) in (2, b, Z.land b 255, true)
  else if cc =? 2 then
    let b := Z.lor (Z.shiftr cbuf 8) (Z.shiftl data 4) in (3, b, Z.land b 255, true)
  else
    let b := Z.lor (Z.shiftr cbuf 8) (Z.shiftl data 2) in (0, b, Z.land b 255, true).
(** And at the end of the record, model2415.c:366-388. *)
Definition conv_in_last (s : dev) : dev :=
  if d_cc s =? 0 then set_data_rdy true (set_cbuf (d_data s) s)
  else if d_cc s =? 1 then let b := Z.shiftr (d_cbuf s) 8 in set_data_rdy true (set_data (Z.land b 15) (set_cbuf b s))
  else if d_cc s =? 2 then let b := Z.shiftr (d_cbuf s) 8 in set_data_rdy true (set_data (Z.land b 3) (set_cbuf b s))
  else s.

(** tape_callback, the write commands, model2415.c:223-319. *)
Definition write_part (fuel : nat) (junk : Z) (s : dev) (u : Z) : res dev :=
  if d_data_end s then
    let* n := nine s in
    let* s :=
      if negb n && bit (d_mode7 s) M_CONV then
        let '(b, r) := conv_last (d_cc s) (d_cbuf s) (d_data s) in
        let* b := six_parity b in
        let s := set_data b (if r : bool then set_data_rdy true s else s) in
        if d_data_rdy s then
          let* t := the_tape s u in
          let* (t', _) := tape_write_frame t b in Ok (set_tape u t' s)
        else Ok s
      else Ok s in
    let* t := the_tape s u in
    let* (t', _) := tape_finish_rec fuel junk t in
    Ok (add_ev CbDone u (set_tape u t' s))
  else if negb (d_data_rdy s) then
    let s := set_sense0 (Z.land (d_sense0 s) (Z.lnot S_WCZERO)) s in
    let* n := nine s in
    let* s :=
      if negb (n : bool) then
        let s := if bit (d_mode7 s) M_TRANS then set_data_rdy true (set_data (trans_out (d_data s)) s) else s in
        let s := if bit (d_mode7 s) M_CONV then
                   let '(c, cb, b) := conv_out (d_cc s) (d_cbuf s) (d_data s) in
                   set_data_rdy true (set_cc c (set_data b (set_cbuf cb s)))
                 else s in
        let* b := six_parity (d_data s) in Ok (set_data b s)
      else
        let* t := the_tape s u in
        let* (t', _) := tape_write_frame t (d_data s) in Ok (set_data_rdy true (set_tape u t' s)) in
    Ok (add_ev CbTape u s)
  else Ok (add_ev CbTape u (set_data_end true (or_sense S_OVRRUN s))).

(** What is done with a frame of a seven-track tape, model2415.c:402-446. *)
Definition read7 (s : dev) : res dev :=
  let* p := tab parity_table (Z.land (d_data s) 63) in
  let s := if Z.lxor p (Z.land (d_data s) 64) =? 0 then set_sense3 S_VCR (set_sense0 S_DCCHK s) else s in
  let s := set_data (Z.land (d_data s) 63) s in
  let* s := if bit (d_mode7 s) M_TRANS then let* e := tab bcd_to_ebcdic (d_data s) in Ok (set_data e s) else Ok s in
  if bit (d_mode7 s) M_CONV then
    let '(c, cbf, b, r) := conv_in (d_cc s) (d_cbuf s) (d_data s) in
    let s := set_cc c (set_data b (set_cbuf cbf s)) in
    Ok (if r : bool then set_data_rdy true s else s)
  else Ok s.

(** tape_callback, the read commands, model2415.c:320-455.  A file error does not schedule anything any more. *)
Definition read_part (fuel : nat) (junk : Z) (s : dev) (u : Z) : res dev :=
  if d_data_end s then
    let* t := the_tape s u in
    let* (t', r, d) := tape_read_frame t (d_data s) in
    let s := set_data (d mod 256) (set_tape u t' s) in
    match r with
    | SOk => Ok (add_ev CbTape u s)
    | _ =>
      let* (t2, _) := tape_finish_rec fuel junk t' in
      Ok (add_ev CbDone u (or_status SNS_CHNEND (set_tape u t2 s)))
    end
  else if d_data_rdy s then
    Ok (add_ev CbDone u (or_status (SNS_CHNEND + SNS_UNITCHK) (or_sense S_OVRRUN (set_data_end true s))))
  else
    let* t := the_tape s u in
    let* (t', r, d) := tape_read_frame t (d_data s) in
    let s := set_data (d mod 256) (set_tape u t' s) in
    match r with
    | SEot | SBot | SEob =>
      let s := add_ev CbTape u s in
      let* n := nine s in
      let s := if negb n && bit (d_mode7 s) M_CONV then conv_in_last s else s in
      Ok (set_data_end true s)
    | SMark =>
      Ok (add_ev CbDone u (or_status (SNS_UNITEXP + SNS_CHNEND) (set_mrk (put (d_mrk s) (d_cur s)) (set_data_end true s))))
    | SOk =>
      let s := add_ev CbTape u s in
      let* n := nine s in
      if n : bool then Ok (set_data_rdy true s) else read7 s
    | _ => Ok s
    end.

(** tape_callback, spacing, model2415.c:489-553. *)
Definition space_part (fuel : nat) (junk : Z) (s : dev) (u : Z) : res dev :=
  let* t := the_tape s u in
  let* (t', r, d) := tape_read_frame t (d_data s) in
  let s := set_data (d mod 256) (set_tape u t' s) in
  match r with
  | SErr => Ok (add_ev CbDone u (or_status SNS_UNITCHK s))
  | SEob =>
    let* (t2, r2) := tape_finish_rec fuel junk t' in
    let s := set_tape u t2 s in
    if tape_at_loadpt t2 then Ok (add_ev CbDone u (or_status SNS_UNITCHK s))
    else if bit (d_cmd s) 8 then
      let* (t3, r3) := if bit (d_cmd s) 16 then tape_read_forw t2 else tape_read_back t2 in
      let s := set_tape u t3 s in
      match r3 with
      | SErr => Ok (add_ev CbDone u (or_status SNS_UNITCHK s))
      | SOk => Ok (add_ev CbTape u s)
      | _ => Ok (add_ev CbDone u s)
      end
    else Ok (add_ev CbDone u (match r2 with SMark => or_status SNS_UNITEXP s | _ => s end))
  | SMark =>
    let* (t2, _) := tape_finish_rec fuel junk t' in
    let s := set_tape u t2 s in
    let s := if negb (bit (d_cmd s) 8) then or_status SNS_UNITEXP (set_mrk (put (d_mrk s) (d_cur s)) s) else s in
    Ok (add_ev CbDone u s)
  | SOk => Ok (add_ev CbTape u s)
  | _ => Ok s
  end.

(** tape_callback, motion control, model2415.c:457-555. *)
Definition motion_part (fuel : nat) (junk : Z) (s : dev) (u : Z) : res dev :=
  let c := Z.land (d_cmd s) 255 in
  if c =? 15 then
    let* t := the_tape s u in
    let s := set_data_end true (add_ev CbRew u (set_tape u (fst (tape_start_rewind t)) s)) in
    let s := set_run (put (d_run s) (d_cur s)) (set_rew (put (d_rew s) (d_cur s)) (set_cmd_done true s)) in
    Ok (set_cmd 0 (set_status (SNS_CTLEND + SNS_DEVEND + SNS_UNITCHK) s))
  else if c =? 7 then
    let* t := the_tape s u in
    let s := set_rew (put (d_rew s) (d_cur s)) (set_tape u (fst (tape_start_rewind t)) s) in
    let s := set_data_end true (add_ev CbRew u s) in
    Ok (if negb (d_chain s) then set_cmd 0 (or_status SNS_DEVEND (set_cmd_done true s)) else s)
  else if c =? 23 then Ok (add_ev CbDone u s)
  else if c =? 31 then
    let* t := the_tape s u in
    let* (t', _) := tape_write_mark t in
    Ok (add_ev CbDone u (set_tape u t' s))
  else if (c =? 55) || (c =? 63) || (c =? 39) || (c =? 47) then space_part fuel junk s u
  else Ok s.

(** tape_callback, model2415.c:210-560. *)
Definition tape_cb (fuel : nat) (junk : Z) (s : dev) (u : Z) : res dev :=
  let k := Z.land (d_cmd s) 15 in
  if (k =? 1) || (k =? 5) || (k =? 9) || (k =? 13) then write_part fuel junk s u
  else if (k =? 2) || (k =? 6) || (k =? 10) || (k =? 14) || (k =? 12) then read_part fuel junk s u
  else if (k =? 7) || (k =? 15) then motion_part fuel junk s u
  else Ok s.

(** The beginning of device_cmd, 585-626: sense bytes and flags. *)
Definition cmd_begin (s : dev) (cmd : Z) : res dev :=
  let* o := unit_tape s (d_cur s) in
  let s :=
    match o with
    | None => set_sense1 0 s
    | Some t =>
      if tape_ready t then
        let x := S_TUA in
        let x := if negb (Z.land (Z.lor (d_rew s) (d_run s)) (2 ^ d_cur s) =? 0) then Z.lor x S_TUB else x in
        let x := if negb (tape_ring t) then Z.lor x S_NORING else x in
        let x := if tape_at_loadpt t then Z.lor x S_LOAD else x in
        let x := if negb (tape_9_track t) then Z.lor x S_7TRACK else x in
        set_tape (d_cur s) (tape_selected true t) (set_sense1 x s)
      else set_sense1 S_TUB s
    end in
  let s := set_cc 0 (set_data_rdy false (set_data_end false (set_cmd_done true (set_cmd cmd (set_sense2 3 s))))) in
  Ok (set_status 0 (set_statu (-1) (set_mrk (drop (d_mrk s) (d_cur s)) (set_rdyf (drop (d_rdyf s) (d_cur s)) s)))).
(** Its end, 862-875. *)
Definition cmd_end (s : dev) : res dev :=
  let* s :=
    if negb (d_cmd s =? 4) && (negb (Z.land (d_sense0 s) (Z.lnot S_WCZERO) =? 0) || bit (d_sense1 s) 1) then
      let s := or_status SNS_UNITCHK s in
      let* o := unit_tape s (d_cur s) in
      let s := match o with Some t => set_tape (d_cur s) (tape_selected false t) s | None => s end in
      Ok (set_cmd_done true (set_data_end true (set_cmd 0 s)))
    else Ok s in
  let s := if d_data_end s then or_status SNS_CHNEND s else s in
  Ok (if d_cmd_done s then or_status SNS_DEVEND s else s).
(** sense[0] = 0; sense[1] &= ...; sense[3] = 0. *)
Definition clear_sense (s : dev) : dev :=
  set_sense3 0 (set_sense1 (Z.land (d_sense1 s) (S_TUA + S_TUB + S_7TRACK + S_LOAD + S_NORING)) (set_sense0 0 s)).
Definition start_ev (s : dev) : dev := set_cmd_done false (add_ev CbTape (d_cur s) s).
(** r >= 0. *)
Definition not_error (r : status) : bool := match r with SErr => false | _ => true end.
(** r == 1 and r == 2: TAPE_STATUS_EOT and TAPE_STATUS_BOT, tape.h:65-66. *)
Definition is1 (r : status) : bool := match r with SEot => true | _ => false end.
Definition is2 (r : status) : bool := match r with SBot => true | _ => false end.

(** device_cmd, the write commands, 632-670. *)
Definition cmd_write (s : dev) : res dev :=
  if bit (d_sense1 s) S_TUB then Ok (set_status SNS_BSY s)
  else
    let s := clear_sense s in
    let* t := the_tape s (d_cur s) in
    if negb (t_att t) then Ok (set_sense0 S_INTERV s)
    else if negb (tape_ring t) then Ok (set_sense0 S_CMDREJ s)
    else
      let* (t', r) := tape_write_start t in
      let s := set_tape (d_cur s) t' s in
      Ok (if is1 r then set_data_rdy true (start_ev (set_sense1 (Z.lor (d_sense1 s) S_WRITE) (set_sense0 S_WCZERO s)))
          else if is2 r then set_sense0 S_CMDREJ s
          else set_sense0 S_INTERV s).
(** The read commands, 672-702. *)
Definition cmd_read (s : dev) : res dev :=
  if bit (d_sense1 s) S_TUB then Ok (set_status SNS_BSY s)
  else
    let s := set_sense2 3 (clear_sense s) in
    let* t := the_tape s (d_cur s) in
    if negb (t_att t) then Ok (set_sense0 S_INTERV s)
    else
      let* (t', r) := tape_read_forw t in
      let s := set_tape (d_cur s) t' s in
      Ok (if not_error r then start_ev s else set_sense0 S_INTERV s).
(** Read backward, 704-737. *)
Definition cmd_readback (s : dev) : res dev :=
  if bit (d_sense1 s) S_TUB then Ok (set_status SNS_BSY s)
  else
    let s := clear_sense s in
    let* t := the_tape s (d_cur s) in
    if negb (t_att t) then Ok (set_sense0 S_INTERV s)
    else if bit (d_sense1 s) S_LOAD then Ok (set_cmd_done true (set_data_end true (or_status SNS_UNITCHK (set_cmd 0 s))))
    else
      let* (t', r) := tape_read_back t in
      let s := set_tape (d_cur s) t' s in
      Ok (if not_error r then start_ev s else set_sense0 S_INTERV s).
(** Mode set, 746-791. *)
Definition cmd_mode (s : dev) : dev :=
  if bit (d_sense1 s) S_TUB then set_data_end true (set_cmd_done true (set_cmd 0 (set_status SNS_BSY s)))
  else
    let s := set_sense3 0 (set_sense0 0 s) in
    let den := Z.land (d_cmd s) 192 in
    let m := Z.land (Z.shiftr (d_cmd s) 3) 7 in
    let s :=
      if bit (d_sense1 s) S_7TRACK then
        if m =? 2 then set_mode7 (Z.lor (M_ODD + M_CONV) den) s
        else if m =? 4 then set_mode7 den s
        else if m =? 5 then set_mode7 (Z.lor M_TRANS den) s
        else if m =? 6 then set_mode7 (Z.lor M_ODD den) s
        else if m =? 7 then set_mode7 (Z.lor (M_ODD + M_TRANS) den) s
        else s
      else set_mode9 den s in
    set_data_end true (set_cmd_done true (set_cmd 0 s)).
(** Motion control, 793-854. *)
Definition cmd_motion (s : dev) : res dev :=
  if bit (d_sense1 s) S_TUB then Ok (set_status SNS_BSY s)
  else
    let s := clear_sense s in
    let* t := the_tape s (d_cur s) in
    if negb (t_att t) then Ok (set_sense0 S_INTERV s)
    else
      let c := Z.land (d_cmd s) 255 in
      if (c =? 23) || (c =? 31) then
        Ok (if negb (tape_ring t) then set_sense0 S_CMDREJ s else start_ev (set_data_end true s))
      else if (c =? 7) || (c =? 15) then Ok (start_ev (set_data_end true s))
      else if (c =? 55) || (c =? 63) then
        let s := set_data_end true s in
        let* (t', r) := tape_read_forw t in
        let s := set_tape (d_cur s) t' s in
        Ok (if not_error r then start_ev s else set_sense0 S_INTERV s)
      else if (c =? 39) || (c =? 47) then
        let s := set_data_end true s in
        if bit (d_sense1 s) S_LOAD then Ok (set_cmd_done true (set_data_end true (or_status SNS_UNITCHK (set_cmd 0 s))))
        else
          let* (t', r) := tape_read_back t in
          let s := set_tape (d_cur s) t' s in
          Ok (if not_error r then start_ev s else set_sense0 S_INTERV s)
      else Ok (set_data_end true (set_cmd 0 (set_sense3 0 (set_sense2 3 (set_sense0 S_CMDREJ s))))).

(** device_cmd, model2415.c:561-876. *)
Definition device_cmd (s : dev) (cmd : Z) : res dev :=
  let k := Z.land cmd 15 in
  if (d_cur s =? d_statu s) && negb (k =? 4) &&
     (negb (d_sense0 s =? 0) || bit (d_sense1 s) S_NOISE || bit (d_sense3 s) (S_VCR + S_LRCR)) then Ok (or_status SNS_BSY s)
  else
    let* s := cmd_begin s cmd in
    if k =? 0 then Ok s
    else
      let* s :=
        if (k =? 1) || (k =? 5) || (k =? 9) || (k =? 13) then cmd_write s
        else if (k =? 2) || (k =? 6) || (k =? 10) || (k =? 14) then cmd_read s
        else if k =? 12 then cmd_readback s
        else if k =? 4 then Ok (set_cmd_done false (set_data_rdy true (set_scnt 1 (set_data (d_sense0 s mod 256) s))))
        else if (k =? 3) || (k =? 11) then Ok (cmd_mode s)
        else if (k =? 7) || (k =? 15) then cmd_motion s
        else Ok (set_cmd_done true (set_data_end true (set_cmd 0 s))) in
      cmd_end s.

(** ctx->sense[n]; data is an uint8_t. *)
Definition sense_at (s : dev) (n : Z) : Z :=
  (if n =? 0 then d_sense0 s else if n =? 1 then d_sense1 s else if n =? 2 then d_sense2 s else if n =? 3 then d_sense3 s else 0) mod 256.

(** model2415_dev, model2415.c:878-1330.  [a]: unit->addr; [bo], [bi]: bus_out and *bus_in. *)
Definition unit_addr (a : Z) (s : dev) : Z := Z.lor (Z.land a 248) (d_cur s).
Definition dev_step (a : Z) (s : dev) (t : tags) (bo bi : Z) : res (dev * tags * Z) :=
  if negb (opro t) && negb (supo t) then
    (* 889-904: reset *)
    let t := if d_sel s then set_opri false (set_adri false (set_srvi false (set_stai false t))) else t in
    Ok (set_data_rdy false (set_data_end false (set_busy false (set_cmd_done false (set_cmd 0 (set_sense0 0
         (set_st IDLE (set_req false (set_sel false s)))))))), t, bi)
  else
  match d_st s with
  | IDLE => (* 908-988 *)
    if negb (opro t) then Ok (s, t, bi)
    else
      let s := if negb (has (d_rdyf s) (d_scan s)) then set_scan (if 6 <=? d_scan s + 1 then 0 else d_scan s + 1) s
               else set_req true s in
      if opri t then Ok (s, if d_req s || d_stk s then set_reqi false t else t, bi)
      else
        let t := if d_req s || d_stk s then set_reqi (negb (supo t || adro t)) t else t in
        if selo t then
          if adro t then
            if Z.land bo 248 =? Z.land a 248 then
              let t := set_selo false (set_reqi false t) in
              let* bad := bad_parity bo in
              let s := if bad : bool then or_sense S_BUSCHK s else s in
              if d_busy s || (negb (d_rdyf s =? 0) && negb (has (d_rdyf s) (Z.land bo 7))) then
                let* b := with_parity (SNS_BSY + SNS_SMS) in
                Ok (set_cbusy true (set_st BUSY s), set_stai true t, b)
              else
                let s := set_cur (Z.land bo 7) s in
                let* b := with_parity (unit_addr a s) in
                Ok (set_sel true (set_st INIT_SEL s), set_opri true t, b)
            else Ok (s, t, bi)
          else if negb (supo t) && (d_req s || d_stk s) then
            let t := set_opri true (set_selo false (set_reqi false t)) in
            let* (s, b) :=
              if negb (has (d_rdyf s) (d_scan s)) then
                let s := or_status SNS_DEVEND (set_cur (d_scan s) s) in
                let* b := with_parity (unit_addr a s) in Ok (s, b)
              else Ok (s, bi) in
            Ok (set_st INIT_SEL (set_sel true s), t, b)
          else Ok (s, t, bi)
        else Ok (s, t, bi)
  | INIT_SEL => (* 991-1001 *)
    let t := set_selo false t in
    let* b := with_parity (unit_addr a s) in
    if negb (adro t) then Ok (set_st COMMAND s, set_adri true t, b) else Ok (s, t, b)
  | COMMAND => (* 1003-1054: the address shown is that of unit 0 *)
    let t := set_selo false t in
    let s := set_req false s in
    let* b := with_parity (Z.land a 255) in
    if cmdo t then
      let t := set_adri false t in
      let* bad := bad_parity bo in
      if bad : bool then
        let s := set_st STATUS (or_sense S_BUSCHK (set_status (SNS_CHNEND + SNS_DEVEND + SNS_UNITCHK)
                  (set_data_end false (set_busy false (set_cmd_done false (set_cmd 0 s)))))) in
        Ok (set_rdyf (drop (d_rdyf s) (d_cur s)) s, t, b)
      else if d_busy s then
        if negb (d_data_end s) then Ok (set_st DATA_1 s, t, b)
        else Ok (set_st STATUS (if d_status s =? 0 then set_status SNS_BSY s else s), t, b)
      else
        let s := set_st STATUS s in
        let* s := if negb (d_stk s) && (d_status s =? 0) then device_cmd s (Z.land bo 255) else Ok s in
        Ok (s, t, b)
    else if adro t && negb (hldo t) then
      let t := set_opri false (set_adri false t) in
      let s := if negb (d_data_end s) then or_status SNS_CHNEND (set_data_end true s) else s in
      Ok (set_st STATUS_WAIT s, t, b)
    else Ok (s, t, b)
  | STATUS => (* 1057-1064 *)
    let t := set_stai true (set_adri false (set_selo false t)) in
    let* b := with_parity (d_status s) in
    Ok (set_st STATUS_ACCEPT s, t, b)
  | STATUS_ACCEPT => (* 1067-1117 *)
    let t := set_selo false t in
    let* b := with_parity (d_status s) in
    if cmdo t then Ok (set_st STATUS_WAIT (set_stk true s), set_opri false (set_stai false t), b)
    else if srvo t then
      let s := set_status 0 (set_chain (supo t) s) in
      let t := set_stai false t in
      if d_cmd_done s || (d_cmd s =? 0) then
        let s := set_st STATUS_WAIT (set_busy false (set_cmd 0 (set_cmd_done false (set_post false (set_data_end false (set_stk false s)))))) in
        Ok (set_rdyf (drop (d_rdyf s) (d_cur s)) s, set_opri false t, b)
      else if d_data_end s then Ok (set_st STATUS_WAIT s, if negb (hldo t) then set_opri false t else t, b)
      else Ok (set_st OPR s, t, b)
    else if adro t then Ok (set_st IDLE s, set_opri false (set_stai false t), b)
    else Ok (s, t, b)
  | STATUS_WAIT => (* 1120-1131 *)
    let t := set_selo false t in
    if negb (cmdo t) && negb (srvo t) && negb (adro t) then
      if negb (hldo t) || negb (d_busy s) then Ok (set_st IDLE (set_sel false s), set_opri false t, bi)
      else Ok (set_st WAIT_DEVEND s, t, bi)
    else Ok (s, t, bi)
  | BUSY => (* 1134-1154 *)
    let* b := with_parity (SNS_BSY + SNS_SMS) in
    if negb (selo t) then
      let s := set_st IDLE (set_sel false s) in
      let s := if adro t && negb (d_data_end s) then
                 set_req true (set_cmd_done true (or_status (SNS_CHNEND + SNS_DEVEND) (set_data_end true (set_data_rdy false s)))) else s in
      Ok (s, set_stai false t, b)
    else Ok (s, set_selo false t, b)
  | END_STATUS => (* 1157-1168 *)
    let t := set_selo false t in
    if cmdo t || srvo t then Ok (s, t, bi)
    else
      let* b := with_parity (d_status s) in
      Ok (set_st END_ACCEPT s, set_stai true t, b)
  | END_ACCEPT => (* 1171-1217 *)
    let t := set_selo false t in
    let* b := with_parity (d_status s) in
    if cmdo t then Ok (set_st STATUS_WAIT (set_stk true s), set_opri false (set_stai false t), b)
    else if srvo t then
      let s := set_status 0 s in
      if d_cmd_done s then
        Ok (set_st STATUS_WAIT (set_busy false (set_cmd_done false (set_cmd 0 (set_stk false s)))),
            set_opri false (set_stai false t), b)
      else if d_data_end s then Ok (set_st STATUS_WAIT s, set_opri false (set_stai false t), b)
      else if hldo t then Ok (set_st WAIT_DEVEND s, set_stai false t, b)
      else Ok (set_st STATUS_WAIT s, set_opri false (set_stai false t), b)
    else Ok (s, t, b)
  | WAIT_DEVEND => (* 1220-1228 *)
    let t := set_selo false t in
    if d_cmd_done s then Ok (set_st STATUS (set_req false s), t, bi) else Ok (s, t, bi)
  | OPR => (* 1231-1283 *)
    let s := set_req false s in
    let t := set_selo false t in
    if adro t then
      let s := set_sel false (or_status SNS_CHNEND (set_data_rdy false (set_data_end true s))) in
      Ok (set_st (if bit (d_cmd s) 16 then END_STATUS else IDLE) s, set_opri false t, bi)
    else if d_data_rdy s then Ok (set_st DATA_1 s, t, bi)
    else
      let s :=
        if Z.land (d_cmd s) 15 =? 4 then
          if (d_scnt s <? 6) && negb (d_data_end s) then set_data_rdy true (set_data (sense_at s (d_scnt s)) (set_scnt (d_scnt s + 1) s))
          else or_status (SNS_CHNEND + SNS_DEVEND) (set_busy false (set_cmd_done true (set_data_end true s)))
        else s in
      Ok (if d_cmd_done s then set_st END_STATUS (or_status (SNS_DEVEND + SNS_CHNEND) s) else s, t, bi)
  | DATA_1 => (* 1285-1298 *)
    let t := set_selo false t in
    if srvo t then Ok (s, t, bi)
    else if supo t then Ok (s, t, bi)
    else
      let* b := with_parity (d_data s) in
      Ok (set_st DATA_2 s, set_srvi true t, b)
  | DATA_2 => (* 1300-1328 *)
    let t := set_selo false t in
    let* b := with_parity (d_data s) in
    if srvo t || cmdo t then
      let t := set_srvi false t in
      let s := set_data_rdy false s in
      let* s :=
        if bit (d_cmd s) 1 then
          let* bad := bad_parity bo in
          if bad : bool then
            Ok (set_cmd_done true (set_busy false (or_status (SNS_CHNEND + SNS_DEVEND) (set_data_end true
                 (or_status SNS_UNITCHK (or_sense S_BUSCHK s))))))
          else Ok (set_data (bo mod 256) s)
        else Ok s in
      let s := set_st OPR s in
      Ok (if cmdo t then set_status SNS_CHNEND (set_data_end true s) else s, t, b)
    else Ok (s, t, b)
  end.

(** The keys of a drive, panel2415.c:258-320.  [KLoad]: [other] tells whether the file name entered is another one than that of
    the tape on the drive; [KStart]: [fd] is fd >= 0 for a drive without a tape (true until a tape was taken off);
    [KEom]: the position given by the length of the tape. *)
Inductive key := KLoad (other : bool) (f : list Z) (ty : tfmt) (ring hi : bool) | KStart (fd : bool) | KUnload | KReset | KEom (x : Z).
Definition start_rewind (s : dev) (u : Z) (t : tape) : dev :=
  let s := set_tape u (fst (tape_start_rewind t)) s in
  add_ev CbRew u (set_rew (put (d_rew s) u) s).
Definition do_key (s : dev) (u : Z) (k : key) : res dev :=
  let* t := the_tape s u in
  match k with
  | KLoad other f ty ring hi =>
    if t_online t then Ok s
    else
      let t := if t_att t && other then fst (tape_detach t) else t in
      let t := if negb (t_att t) then tape_attach t f ty ring hi else t in
      Ok (start_rewind s u t)
  | KStart fd =>
    if negb (t_online t) && (t_att t || fd) then Ok (set_rdyf (put (d_rdyf s) u) (set_tape u (tape_online true t) s)) else Ok s
  | KUnload =>
    if negb (t_online t) then
      let s := start_rewind s u t in Ok (set_run (put (d_run s) u) s)
    else Ok s
  | KReset => Ok (set_tape u (tape_online false t) s)
  | KEom x => Ok (set_tape u (set_frame t x) s)
  end.

(** One pending callback comes (advance() of event.c). *)
Definition fire (fuel : nat) (junk : Z) (s : dev) (k : cb) (u : Z) : res dev :=
  if existsb (ev_eqb (k, u)) (d_pend s) then
    let s := set_pend (remove_ev (k, u) (d_pend s)) s in
    match k with CbTape => tape_cb fuel junk s u | CbDone => done_cb s u | CbRew => rew_cb s u end
  else Ok s.

(** model2415_create, model2415.c:1393-1453, with the drives given. *)
Definition init_dev (l : list (option tape)) : dev :=
  mkD IDLE false false false 0 0 0 0 0 false false 0 false 0 0 0 false false false false 0 0 0 0 0 0 0 l 0 0 0 [].
